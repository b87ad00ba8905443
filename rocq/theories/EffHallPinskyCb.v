(** Collision efficiencies of src/detail/kernel_definitions/hall_pinsky_cumulonimbus_efficiencies.hpp:18-2049, the array arr, in millionths; row M has the
    entries for the greater radius number M and smaller radii number 0 to M.  Converted from the source by a script. *)
From Coq Require Import List NArith.
Import ListNotations.
Local Open Scope N_scope.

Definition rows_HallPinskyCb : list (list N) := [
  [0];
  [0; 178000];
  [0; 174000; 178000];
  [0; 90000; 182000; 184000];
  [0; 64000; 97000; 185000; 186000];
  [0; 49000; 69000; 101000; 186000; 186000];
  [0; 40000; 53000; 71000; 102000; 186000; 186000];
  [0; 34000; 43000; 55000; 71000; 102000; 186000; 186000];
  [0; 29000; 36000; 45000; 55000; 71000; 101000; 186000; 185000];
  [0; 26000; 31000; 37000; 45000; 56000; 71000; 101000; 185000; 185000];
  [0; 23000; 27000; 32000; 39000; 47000; 57000; 72000; 101000; 186000; 185000];
  [0; 21000; 24000; 28000; 34000; 41000; 49000; 59000; 73000; 101000; 185000; 185000];
  [0; 19000; 22000; 25000; 31000; 38000; 47000; 55000; 63000; 75000; 103000; 185000; 184000];
  [0; 17000; 19000; 23000; 29000; 37000; 47000; 55000; 62000; 69000; 79000; 105000; 184000; 185000];
  [0; 16000; 18000; 21000; 27000; 37000; 49000; 60000; 69000; 74000; 79000; 85000; 107000; 185000; 185000];
  [0; 15000; 16000; 19000; 26000; 38000; 53000; 67000; 79000; 87000; 90000; 90000; 93000; 112000; 186000; 186000];
  [0; 14000; 15000; 18000; 26000; 40000; 58000; 77000; 94000; 106000; 111000; 110000; 105000; 102000; 117000; 186000; 187000];
  [0; 13000; 14000; 17000; 26000; 42000; 65000; 89000; 112000; 129000; 139000; 140000; 135000; 124000; 114000; 122000; 187000; 188000];
  [0; 12000; 13000; 16000; 26000; 45000; 72000; 103000; 132000; 155000; 170000; 177000; 174000; 163000; 146000; 128000; 129000; 188000;
  190000];
  [0; 12000; 12000; 15000; 26000; 48000; 81000; 118000; 153000; 182000; 203000; 216000; 218000; 211000; 195000; 171000; 145000; 139000;
  191000; 193000];
  [0; 11000; 11000; 15000; 27000; 53000; 90000; 133000; 174000; 209000; 236000; 254000; 263000; 200000; 250000; 228000; 198000; 163000;
  146000; 195000; 197000];
  [0; 10000; 11000; 14000; 28000; 57000; 100000; 149000; 196000; 236000; 268000; 292000; 306000; 310000; 305000; 290000; 264000; 227000;
  184000; 156000; 199000; 197000];
  [0; 0; 411; 5949; 16145; 28327; 45236; 69055; 97455; 126982; 152691; 167600; 178145; 182800; 180982; 172873; 161600; 150145; 139527;
  129564; 121709; 120873; 125600];
  [0; 0; 521; 6045; 16052; 29357; 47661; 75400; 109400; 148522; 183113; 206444; 221443; 230852; 233635; 229357; 216487; 203226; 191422;
  180483; 170061; 163287; 165509; 174900];
  [0; 0; 607; 5930; 15867; 29200; 47200; 79533; 117867; 162500; 206933; 242533; 263200; 276700; 283267; 282600; 273867; 258700; 244200;
  232533; 221267; 210400; 205267; 210533; 224200];
  [0; 0; 670; 5630; 15600; 28000; 48400; 81400; 122600; 170400; 226000; 270800; 299400; 318400; 330800; 336000; 331200; 316800; 300200;
  285500; 273500; 261900; 250600; 247600; 255900; 273500];
  [0; 0; 714; 5166; 15262; 27877; 48492; 80646; 124031; 174185; 235692; 290708; 333262; 358800; 374800; 383477; 384708; 378031; 358338;
  341108; 326646; 314400; 302400; 290677; 290246; 301569; 322800];
  [0; 0; 740; 4557; 14979; 27674; 47600; 77563; 123415; 177267; 240074; 306504; 361022; 392748; 415156; 430578; 436430; 433096; 420267;
  399044; 381489; 367656; 355152; 342793; 330644; 333170; 347507; 372100];
  [0; 0; 751; 3817; 14803; 27400; 45829; 72400; 122114; 177400; 239714; 315286; 377486; 424686; 454400; 472543; 483486; 487200; 481200;
  461257; 439829; 421400; 408543; 395771; 383086; 370514; 376343; 393686; 421400];
  [0; 0; 749; 2961; 14471; 27062; 43269; 71614; 118683; 174890; 237855; 316414; 390359; 453255; 486407; 511752; 530221; 536634; 535393;
  526234; 501131; 480131; 462424; 449321; 436272; 423262; 410296; 419738; 440079; 470700];
  [0; 0; 733; 2000; 14000; 26667; 40000; 70000; 113333; 170000; 236667; 313333; 400000; 466667; 516667; 550000; 570000; 583333; 590000;
  583333; 566667; 540000; 520000; 503333; 490000; 476667; 463333; 450000; 463333; 486667; 520000];
  [0; 0; 2690; 8245; 30400; 55032; 80839; 113097; 151806; 205032; 264355; 328710; 406774; 473613; 531452; 560484; 583710; 601129; 606290;
  606419; 599968; 578710; 556968; 540194; 527290; 515806; 504839; 493871; 486194; 508129; 549936; 608000];
  [0; 0; 4110; 13685; 43800; 79500; 117000; 154500; 192000; 242000; 295000; 352500; 420000; 486500; 539000; 575000; 600000; 615000;
  625000; 627500; 623000; 613750; 592500; 575750; 562000; 552000; 542500; 533750; 525000; 524000; 554000; 614750; 696000];
  [0; 0; 5043; 18395; 54473; 100424; 148909; 194364; 235273; 280727; 328333; 381667; 439091; 501515; 550849; 593182; 614394; 631364;
  644091; 646515; 645788; 639727; 626667; 607879; 596182; 585879; 577394; 570000; 563333; 556667; 563273; 600848; 680970; 784000];
  [0; 0; 5532; 22438; 62659; 118424; 176941; 232824; 276941; 321059; 365176; 413529; 463529; 518824; 568000; 608000; 632353; 650000;
  660588; 667647; 666471; 662471; 656588; 641176; 626353; 618118; 610471; 603412; 598235; 593529; 588824; 603882; 648588; 748471; 872000];
  [0; 0; 5614; 25871; 68571; 133714; 201429; 270000; 317143; 362857; 404286; 447857; 493571; 541429; 590000; 624286; 653571; 667857;
  679286; 687857; 687857; 685000; 679286; 671429; 657143; 647143; 641429; 635714; 630000; 627143; 624286; 621429; 645714; 697143; 817143;
  960000];
  [0; 0; 5324; 28747; 72400; 146400; 222667; 300444; 356000; 406000; 444889; 484444; 526667; 568889; 611111; 645333; 674222; 688889;
  700000; 706667; 711111; 706667; 701778; 696222; 686667; 674444; 669333; 666000; 661556; 657778; 656667; 655556; 654444; 688667; 746444;
  886889; 1048000];
  [0; 0; 4692; 31109; 74314; 156692; 240919; 327405; 393622; 446324; 486865; 523351; 562027; 600811; 637027; 670757; 694541; 712838;
  720946; 727432; 732297; 730135; 724189; 718676; 713270; 703243; 693892; 692811; 691189; 687946; 686216; 686757; 687297; 687838; 732649;
  796433; 957622; 1136000];
  [0; 0; 3745; 32998; 74463; 164779; 256421; 351158; 430105; 485368; 530105; 564316; 599474; 635263; 667368; 697895; 719158; 738105;
  744737; 750000; 753158; 755263; 747895; 740947; 735684; 729474; 721053; 716421; 717474; 716947; 714842; 715263; 717368; 719474; 721579;
  777579; 847053; 1029260; 1224000];
  [0; 0; 2507; 34451; 72985; 170831; 269385; 371949; 465538; 523231; 574513; 606564; 638846; 671667; 701795; 726923; 747744; 762103;
  771154; 773718; 775769; 777308; 773205; 764487; 757923; 752795; 746667; 740000; 740154; 743231; 743231; 742205; 744872; 748461; 752051;
  755641; 823385; 898256; 1101740; 1312000];
  [0; 0; 1000; 35500; 70000; 175000; 280000; 390000; 500000; 560000; 620000; 650000; 680000; 710000; 740000; 760000; 780000; 790000;
  800000; 800000; 800000; 800000; 800000; 790000; 780000; 775000; 770000; 765000; 760000; 765000; 770000; 770000; 770000; 775000; 780000;
  785000; 790000; 870000; 950000; 1175000; 1400000];
  [0; 0; 0; 48483; 98044; 194756; 296707; 398244; 499707; 565268; 621854; 657585; 686366; 714463; 742268; 764049; 782585; 795854; 805610;
  810000; 810000; 810000; 810000; 806049; 797268; 790049; 785171; 780293; 775415; 773317; 777707; 781122; 781610; 783171; 789024; 795317;
  804098; 820439; 904829; 997317; 1243660; 1490000];
  [0; 0; 0; 59314; 123219; 215238; 314286; 409333; 502667; 572000; 625333; 665810; 693429; 720286; 746000; 769143; 786286; 801905; 811429;
  820000; 820000; 820000; 820000; 820000; 813143; 805524; 800190; 795429; 790667; 785905; 786286; 790095; 792476; 793429; 796667; 803333;
  811714; 824095; 851714; 940286; 1046670; 1313330; 1580000];
  [0; 0; 0; 68144; 145726; 236395; 332674; 423070; 508651; 580093; 630326; 674628; 701140; 727372; 751093; 774814; 791023; 806837; 817442;
  826744; 830000; 830000; 830000; 830000; 827721; 821209; 815070; 810419; 805767; 801116; 796465; 798930; 802186; 804047; 805442; 810465;
  817907; 829116; 844930; 883767; 976326; 1097910; 1383950; 1670000];
  [0; 0; 0; 75109; 165745; 258182; 351818; 439273; 517455; 589455; 636727; 684000; 709455; 734909; 757455; 779273; 796727; 811273; 823636;
  832727; 840000; 840000; 840000; 840000; 840000; 835636; 830182; 825273; 820727; 816182; 811636; 808545; 811273; 814000; 815818; 817636;
  824545; 832727; 847454; 866545; 916546; 1012910; 1150910; 1455450; 1760000];
  [0; 0; 0; 80333; 183444; 280556; 371667; 457778; 528889; 600000; 644444; 688889; 718333; 742778; 765000; 785000; 803333; 816667; 830000;
  838889; 847778; 850000; 850000; 850000; 850000; 848889; 844444; 840000; 835556; 831111; 826667; 822222; 821111; 823333; 825556; 827778;
  830000; 838889; 847778; 866667; 888889; 950000; 1050000; 1205560; 1527780; 1850000];
  [0; 0; 0; 83930; 198974; 303478; 392174; 478435; 542783; 607130; 653391; 695130; 727739; 751217; 773652; 791913; 810174; 822957; 835130;
  845217; 853913; 860000; 860000; 860000; 860000; 860000; 857565; 854087; 850261; 845913; 841565; 837217; 832870; 833391; 835130; 837304;
  839913; 843913; 853478; 863043; 886696; 911913; 984087; 1087560; 1261740; 1600870; 1940000];
  [0; 0; 0; 86004; 212472; 326915; 413298; 499681; 558979; 616851; 663489; 702638; 737638; 760191; 782745; 799936; 816532; 830085; 841149;
  851702; 860213; 868723; 870000; 870000; 870000; 870000; 869617; 867064; 864511; 860596; 856340; 852085; 847830; 844128; 845404; 846681;
  849234; 852213; 858085; 868298; 879404; 907489; 935574; 1018770; 1125570; 1319360; 1674680; 2030000];
  [0; 0; 0; 86650; 224067; 350833; 435000; 519167; 577333; 629000; 674667; 711333; 748000; 769667; 791333; 809000; 824000; 838000; 848000;
  858000; 866667; 875000; 880000; 880000; 880000; 880000; 880000; 879000; 877333; 875167; 871000; 866833; 862667; 858500; 856333; 857167;
  858000; 861333; 864667; 872500; 883333; 898167; 929000; 959833; 1054000; 1164000; 1378330; 1749170; 2120000];
  [0; 0; 0; 85955; 233873; 375204; 457245; 539286; 597714; 643429; 686857; 721143; 755428; 779612; 800429; 819041; 832510; 845980; 855633;
  864612; 873265; 881429; 889592; 890000; 890000; 890000; 890000; 889959; 889143; 888326; 885551; 881469; 877388; 873306; 869224; 868286;
  868694; 869918; 873592; 877265; 887143; 898571; 917714; 951184; 984653; 1089760; 1202820; 1438570; 1824290; 2210000];
  [0; 0; 0; 84000; 242000; 400000; 480000; 560000; 620000; 660000; 700000; 732000; 764000; 790000; 810000; 830000; 842000; 854000; 864000;
  872000; 880000; 888000; 896000; 900000; 900000; 900000; 900000; 900000; 900000; 900000; 900000; 896000; 892000; 888000; 884000; 880000;
  880000; 880000; 882000; 886000; 890000; 902000; 914000; 938000; 974000; 1010000; 1126000; 1242000; 1500000; 1900000; 2300000];
  [0; 0; 0; 78941; 233255; 387569; 473941; 552765; 618137; 658529; 698922; 731784; 762765; 790706; 809529; 828353; 841961; 853333; 864118;
  871569; 879020; 886471; 893922; 901000; 901000; 901000; 901000; 901000; 901000; 901000; 901000; 899588; 896059; 892529; 889333; 886196;
  884118; 884510; 884902; 888235; 892549; 898510; 911059; 923608; 949412; 982353; 1024860; 1153490; 1282120; 1562160; 1966080; 2370000];
  [0; 0; 0; 74308; 225077; 375846; 468154; 545846; 616154; 656923; 697692; 732000; 762000; 792000; 809692; 827385; 842308; 853077; 863846;
  871538; 878462; 885385; 892308; 899231; 902000; 902000; 902000; 902000; 902000; 902000; 902000; 902000; 899538; 896462; 893538; 891231;
  888923; 888462; 889231; 890000; 894615; 899231; 907231; 920308; 933385; 960000; 990000; 1042150; 1182920; 1323690; 1624620; 2032310;
  2440000];
  [0; 0; 0; 70075; 217434; 364792; 462623; 539226; 614057; 655189; 696321; 732623; 761679; 790736; 810453; 827057; 843019; 853208; 863396;
  871887; 878302; 884717; 891132; 897547; 903000; 903000; 903000; 903000; 903000; 903000; 903000; 903000; 902472; 899830; 897189; 895170;
  893660; 892151; 893019; 894151; 896226; 901132; 906038; 916151; 929736; 943321; 969811; 996981; 1061740; 1214190; 1366640; 1687360;
  2098680; 2510000];
  [0; 0; 0; 66222; 210296; 354370; 457333; 532889; 608444; 653333; 694815; 733630; 761778; 789926; 811778; 827333; 842889; 853704; 863333;
  872593; 878519; 884444; 890370; 896296; 902222; 904000; 904000; 904000; 904000; 904000; 904000; 904000; 904000; 902667; 900444; 898222;
  897333; 896593; 896296; 897778; 899259; 902593; 907778; 912963; 925259; 939333; 954444; 978889; 1003330; 1083480; 1247180; 1410890;
  1750370; 2165180; 2580000];
  [0; 0; 0; 62727; 203636; 344545; 452273; 526818; 601364; 651364; 693182; 735000; 762273; 789545; 813636; 828182; 842727; 854545; 863636;
  872727; 879091; 884545; 890000; 895455; 900909; 905000; 905000; 905000; 905000; 905000; 905000; 905000; 905000; 905000; 903182; 901364;
  900000; 900000; 900000; 900909; 902727; 904545; 909091; 914545; 920000; 934545; 949091; 965455; 987273; 1009090; 1107270; 1281820;
  1456360; 1813640; 2231820; 2650000];
  [0; 0; 0; 59571; 197429; 335286; 447429; 521000; 594571; 649286; 691429; 733571; 763143; 789571; 816000; 829571; 843143; 855714; 864286;
  872857; 880000; 885000; 890000; 895000; 900000; 905000; 906000; 906000; 906000; 906000; 906000; 906000; 906000; 906000; 905429; 904000;
  902571; 902429; 903143; 903857; 905714; 907857; 910000; 915714; 921429; 929000; 944000; 959000; 975714; 995000; 1014290; 1133000;
  1318000; 1503000; 1877140; 2298570; 2720000];
  [0; 0; 0; 56737; 191649; 326561; 442789; 515421; 588053; 647105; 689561; 732018; 764368; 789982; 815596; 831474; 844105; 856737; 865263;
  873333; 881228; 885789; 890351; 894912; 899474; 904035; 907000; 907000; 907000; 907000; 907000; 907000; 907000; 907000; 907000; 906158;
  905105; 904053; 905333; 906737; 908246; 910702; 913158; 916491; 922456; 928421; 938175; 953614; 969053; 985263; 1002100; 1018950;
  1160560; 1355650; 1550740; 1940880; 2365440; 2790000];
  [0; 0; 0; 54207; 186276; 318345; 438345; 510069; 581793; 644828; 687586; 730345; 765931; 790759; 815586; 833862; 845586; 857310; 866552;
  874138; 881724; 886897; 891034; 895172; 899310; 903448; 907586; 908000; 908000; 908000; 908000; 908000; 908000; 908000; 908000; 907862;
  907172; 906483; 906621; 908690; 910759; 913103; 915862; 918621; 923103; 929310; 935517; 947517; 963379; 979241; 994138; 1008620;
  1023100; 1189860; 1394690; 1599520; 2004830; 2432410; 2860000];
  [0; 0; 0; 51966; 181288; 310610; 434085; 504932; 575780; 642458; 685508; 728559; 767814; 791881; 815949; 836712; 847559; 858407; 868136;
  875254; 882373; 888305; 892034; 895763; 899492; 903220; 906949; 909000; 909000; 909000; 909000; 909000; 909000; 909000; 909000; 909000;
  908797; 908458; 908119; 909763; 912475; 915186; 918136; 921186; 924237; 929830; 936271; 942712; 957017; 973288; 989559; 1002370;
  1014580; 1026780; 1220810; 1435050; 1649290; 2068980; 2499490; 2930000];
  [0; 0; 0; 50000; 176667; 303333; 430000; 500000; 570000; 640000; 683333; 726667; 770000; 793333; 816667; 840000; 850000; 860000; 870000;
  876667; 883333; 890000; 893333; 896667; 900000; 903333; 906667; 910000; 910000; 910000; 910000; 910000; 910000; 910000; 910000; 910000;
  910000; 910000; 910000; 910000; 913333; 916667; 920000; 923333; 926667; 930000; 936667; 943333; 950000; 966667; 983333; 1000000;
  1010000; 1020000; 1030000; 1253330; 1476670; 1700000; 2133330; 2566670; 3000000];
  [0; 0; 0; 0; 183361; 307951; 432541; 505787; 573328; 640869; 686115; 727426; 768738; 794574; 816541; 838508; 851131; 860639; 870148;
  877590; 884148; 890705; 895344; 898951; 902557; 905967; 909246; 912525; 914000; 914000; 914000; 914000; 914000; 914000; 914000; 914000;
  914000; 914000; 914000; 914000; 915033; 917984; 920934; 924082; 927689; 931295; 935721; 942607; 949492; 958082; 973492; 988902; 1003430;
  1012930; 1022440; 1054900; 1293920; 1532930; 1781970; 2221310; 2660660; 3100000];
  [0; 0; 0; 0; 190323; 312903; 435484; 512129; 577290; 642452; 689548; 728903; 768258; 796387; 817032; 837677; 852516; 861548; 870581;
  878581; 885032; 891484; 897161; 901032; 904903; 908645; 911871; 915097; 918000; 918000; 918000; 918000; 918000; 918000; 918000; 918000;
  918000; 918000; 918000; 918000; 918000; 919806; 922387; 924968; 928323; 932194; 936065; 941548; 948645; 955742; 965677; 979871; 994064;
  1006710; 1015740; 1024770; 1082840; 1337030; 1591230; 1864520; 2309680; 2754840; 3200000];
  [0; 0; 0; 0; 197540; 318175; 438809; 519000; 581857; 644714; 693603; 731063; 768524; 798746; 818111; 837476; 854143; 862714; 871286;
  879635; 885984; 892333; 898683; 902921; 907048; 911175; 914540; 917714; 920889; 922000; 922000; 922000; 922000; 922000; 922000; 922000;
  922000; 922000; 922000; 922000; 922000; 922111; 924333; 926556; 928778; 932714; 936841; 940968; 947476; 954778; 962079; 972809; 985825;
  998841; 1009860; 1018430; 1027000; 1113670; 1382560; 1651450; 1947620; 2398410; 2849210; 3300000];
  [0; 0; 0; 0; 205000; 323750; 442500; 526375; 587000; 647625; 698250; 733875; 769500; 801625; 819750; 837875; 856000; 864125; 872250;
  880375; 887000; 893250; 899500; 904625; 909000; 913375; 917250; 920375; 923500; 926000; 926000; 926000; 926000; 926000; 926000; 926000;
  926000; 926000; 926000; 926000; 926000; 926000; 926750; 928625; 930500; 932875; 937250; 941625; 946000; 953500; 961000; 968500; 979500;
  991375; 1003250; 1012870; 1021000; 1029120; 1147250; 1430370; 1713500; 2031250; 2487500; 2943750; 3400000];
  [0; 0; 0; 0; 212692; 329615; 446538; 534231; 592692; 651154; 703462; 737308; 771154; 805000; 821923; 838846; 855769; 865769; 873462;
  881154; 888077; 894231; 900385; 906154; 910769; 915385; 920000; 923077; 926154; 929231; 930000; 930000; 930000; 930000; 930000; 930000;
  930000; 930000; 930000; 930000; 930000; 930000; 930000; 931154; 932692; 934231; 937308; 941923; 946539; 951923; 959615; 967308; 975000;
  985769; 996538; 1007310; 1015770; 1023460; 1031150; 1183460; 1480380; 1777310; 2115390; 2576920; 3038460; 3500000];
  [0; 0; 0; 0; 220606; 335758; 450909; 542545; 598909; 655273; 709212; 741333; 773455; 805576; 824606; 840364; 856121; 867636; 874909;
  882182; 889212; 895273; 901333; 907394; 912364; 917212; 922061; 925818; 928849; 931879; 934000; 934000; 934000; 934000; 934000; 934000;
  934000; 934000; 934000; 934000; 934000; 934000; 934000; 934121; 935333; 936545; 937758; 941879; 946727; 951576; 957939; 965818; 973697;
  981939; 991636; 1001330; 1011030; 1018550; 1025820; 1033090; 1222180; 1532490; 1842790; 2200000; 2666670; 3133330; 3600000];
  [0; 0; 0; 0; 228731; 342164; 455597; 551298; 605627; 659955; 714284; 745925; 776373; 806821; 827776; 842403; 857030; 869716; 876582;
  883448; 890313; 896373; 902343; 908313; 913791; 918866; 923940; 928597; 931582; 934567; 937552; 938000; 938000; 938000; 938000; 938000;
  938000; 938000; 938000; 938000; 938000; 938000; 938000; 938000; 938403; 939299; 940194; 941507; 946582; 951657; 956731; 964045; 972104;
  980164; 988463; 997119; 1005780; 1014340; 1021210; 1028070; 1034940; 1263300; 1586580; 1909870; 2285070; 2756720; 3228360; 3700000];
  [0; 0; 0; 0; 237059; 348824; 460588; 560471; 612823; 665176; 717529; 751059; 779882; 808706; 831412; 844941; 858471; 872000; 878471;
  884941; 891412; 897529; 903412; 909294; 915059; 920353; 925647; 930941; 934353; 937294; 940235; 942000; 942000; 942000; 942000; 942000;
  942000; 942000; 942000; 942000; 942000; 942000; 942000; 942000; 942000; 942471; 943059; 943647; 946118; 951412; 956706; 962000; 970235;
  978471; 986706; 994588; 1002240; 1009880; 1017290; 1023760; 1030240; 1036710; 1306710; 1642590; 1978470; 2370590; 2847060; 3323530;
  3800000];
  [0; 0; 0; 0; 245580; 355725; 465870; 570043; 620478; 670913; 721348; 756710; 783956; 811203; 835493; 847956; 860420; 872884; 880565;
  886652; 892739; 898739; 904536; 910333; 916130; 921681; 927188; 932696; 937159; 940058; 942957; 945855; 946000; 946000; 946000; 946000;
  946000; 946000; 946000; 946000; 946000; 946000; 946000; 946000; 946000; 946043; 946333; 946623; 946913; 950855; 956362; 961870; 968101;
  976507; 984913; 993319; 1000330; 1007000; 1013670; 1020130; 1026220; 1032300; 1038390; 1352310; 1700420; 2048540; 2456520; 2937680;
  3418840; 3900000];
  [0; 0; 0; 0; 254286; 362857; 471429; 580000; 628571; 677143; 725714; 762857; 788571; 814286; 840000; 851429; 862857; 874286; 882857;
  888571; 894286; 900000; 905714; 911429; 917143; 922857; 928571; 934286; 940000; 942857; 945714; 948571; 950000; 950000; 950000; 950000;
  950000; 950000; 950000; 950000; 950000; 950000; 950000; 950000; 950000; 950000; 950000; 950000; 950000; 950000; 955714; 961429; 967143;
  974286; 982857; 991429; 1000000; 1005710; 1011430; 1017140; 1022860; 1028570; 1034290; 1040000; 1400000; 1760000; 2120000; 2542860;
  3028570; 3514290; 4000000];
  [0; 0; 0; 0; 257789; 363986; 470183; 576380; 629676; 677094; 724512; 764042; 788925; 813807; 838690; 852380; 863272; 874164; 883812;
  889728; 895643; 901559; 907146; 912592; 918038; 923484; 928930; 934376; 939822; 943634; 946357; 949080; 951667; 951667; 951667; 951667;
  951667; 951667; 951667; 951667; 951667; 951667; 951667; 951667; 951667; 951667; 951667; 951667; 951667; 951667; 953300; 958746; 964193;
  969639; 977127; 985296; 993465; 1001090; 1006540; 1011980; 1017430; 1022870; 1028320; 1033760; 1072980; 1416080; 1759170; 2102270;
  2511270; 2974180; 3437090; 3900000];
  [0; 0; 0; 0; 261556; 365444; 469333; 573222; 631037; 677333; 723630; 765481; 789556; 813630; 837704; 853556; 863926; 874296; 884667;
  890778; 896889; 903000; 908741; 913926; 919111; 924296; 929482; 934667; 939852; 944519; 947111; 949704; 952296; 953333; 953333; 953333;
  953333; 953333; 953333; 953333; 953333; 953333; 953333; 953333; 953333; 953333; 953333; 953333; 953333; 953333; 953333; 956444; 961630;
  966815; 972000; 979778; 987556; 995333; 1002070; 1007260; 1012440; 1017630; 1022810; 1028000; 1033190; 1102670; 1429330; 1756000;
  2082670; 2477780; 2918520; 3359260; 3800000];
  [0; 0; 0; 0; 265575; 367219; 468863; 570507; 632644; 677849; 723055; 767164; 790452; 813740; 837027; 854945; 864808; 874671; 884534;
  891726; 898027; 904329; 910493; 915425; 920356; 925288; 930219; 935151; 940082; 945014; 947973; 950438; 952904; 955000; 955000; 955000;
  955000; 955000; 955000; 955000; 955000; 955000; 955000; 955000; 955000; 955000; 955000; 955000; 955000; 955000; 955000; 955000; 959438;
  964370; 969301; 974849; 982247; 989644; 997041; 1002960; 1007890; 1012820; 1017750; 1022690; 1027620; 1032550; 1129210; 1439890;
  1750580; 2061260; 2442470; 2861640; 3280820; 3700000];
  [0; 0; 0; 0; 269838; 369297; 468757; 568216; 634486; 678631; 722775; 766919; 791604; 814126; 836649; 856541; 865910; 875279; 884649;
  892577; 899063; 905550; 912036; 917081; 921766; 926450; 931135; 935820; 940504; 945189; 948937; 951279; 953622; 955964; 956667; 956667;
  956667; 956667; 956667; 956667; 956667; 956667; 956667; 956667; 956667; 956667; 956667; 956667; 956667; 956667; 956667; 956667; 957604;
  962288; 966973; 971658; 977514; 984541; 991568; 998595; 1003750; 1008430; 1013120; 1017800; 1022490; 1027170; 1031860; 1152720; 1447860;
  1742990; 2038130; 2405410; 2803610; 3201800; 3600000];
  [0; 0; 0; 0; 274333; 371667; 469000; 566333; 636556; 679667; 722778; 765889; 793000; 814778; 836556; 858333; 867222; 876111; 885000;
  893333; 900000; 906667; 913333; 918889; 923333; 927778; 932222; 936667; 941111; 945556; 950000; 952222; 954444; 956667; 958333; 958333;
  958333; 958333; 958333; 958333; 958333; 958333; 958333; 958333; 958333; 958333; 958333; 958333; 958333; 958333; 958333; 958333; 958333;
  960556; 965000; 969444; 973889; 980000; 986667; 993333; 1000000; 1004440; 1008890; 1013330; 1017780; 1022220; 1026670; 1031110; 1173330;
  1453330; 1733330; 2013330; 2366670; 2744440; 3122220; 3500000];
  [0; 0; 0; 0; 279053; 374316; 469579; 564842; 638842; 680947; 723053; 765158; 794632; 815684; 836737; 857789; 868737; 877158; 885579;
  894000; 900842; 907684; 914526; 920842; 925053; 929263; 933474; 937684; 941895; 946105; 950316; 953263; 955368; 957474; 959579; 960000;
  960000; 960000; 960000; 960000; 960000; 960000; 960000; 960000; 960000; 960000; 960000; 960000; 960000; 960000; 960000; 960000; 960000;
  960000; 963368; 967579; 971789; 976000; 982316; 988632; 994947; 1000840; 1005050; 1009260; 1013470; 1017680; 1021900; 1026110; 1030320;
  1191160; 1456420; 1721690; 1986950; 2326320; 2684210; 3042110; 3400000];
  [0; 0; 0; 0; 283987; 377234; 470481; 563727; 641338; 682463; 723589; 764714; 796489; 816836; 837182; 857528; 870446; 878411; 886377;
  894342; 901593; 908606; 915619; 922632; 926918; 930900; 934883; 938866; 942849; 946831; 950814; 954398; 956390; 958381; 960372; 961667;
  961667; 961667; 961667; 961667; 961667; 961667; 961667; 961667; 961667; 961667; 961667; 961667; 961667; 961667; 961667; 961667; 961667;
  961667; 962065; 966048; 970030; 974013; 978494; 984468; 990442; 996416; 1001590; 1005580; 1009560; 1013540; 1017520; 1021510; 1025490;
  1029470; 1206300; 1457210; 1708120; 1959030; 2284420; 2622940; 2961470; 3300000];
  [0; 0; 0; 0; 289128; 380410; 471692; 562974; 644034; 684205; 724376; 764547; 798564; 818222; 837880; 857538; 872342; 879863; 887385;
  894906; 902256; 909436; 916615; 923795; 928923; 932684; 936444; 940205; 943966; 947726; 951487; 955248; 957504; 959385; 961265; 963145;
  963333; 963333; 963333; 963333; 963333; 963333; 963333; 963333; 963333; 963333; 963333; 963333; 963333; 963333; 963333; 963333; 963333;
  963333; 963333; 964838; 968598; 972359; 976120; 980821; 986462; 992103; 997744; 1002260; 1006020; 1009780; 1013540; 1017300; 1021060;
  1024820; 1028580; 1218870; 1455800; 1692720; 1929640; 2241030; 2560680; 2880340; 3200000];
  [0; 0; 0; 0; 294468; 383835; 473203; 562570; 646924; 686165; 725405; 764646; 800848; 819835; 838823; 857810; 874418; 881506; 888595;
  895684; 902835; 910177; 917519; 924861; 931063; 934608; 938152; 941696; 945240; 948785; 952329; 955873; 958709; 960481; 962253; 964025;
  965000; 965000; 965000; 965000; 965000; 965000; 965000; 965000; 965000; 965000; 965000; 965000; 965000; 965000; 965000; 965000; 965000;
  965000; 965000; 965000; 967481; 971025; 974570; 978114; 982987; 988304; 993620; 998937; 1002840; 1006380; 1009920; 1013470; 1017010;
  1020560; 1024100; 1027650; 1228960; 1452250; 1675540; 1898840; 2196200; 2497470; 2798730; 3100000];
  [0; 0; 0; 0; 300000; 387500; 475000; 562500; 650000; 688333; 726667; 765000; 803333; 821667; 840000; 858333; 876667; 883333; 890000;
  896667; 903333; 910833; 918333; 925833; 933333; 936667; 940000; 943333; 946667; 950000; 953333; 956667; 960000; 961667; 963333; 965000;
  966667; 966667; 966667; 966667; 966667; 966667; 966667; 966667; 966667; 966667; 966667; 966667; 966667; 966667; 966667; 966667; 966667;
  966667; 966667; 966667; 966667; 970000; 973333; 976667; 980000; 985000; 990000; 995000; 1000000; 1003330; 1006670; 1010000; 1013330;
  1016670; 1020000; 1023330; 1026670; 1236670; 1446670; 1656670; 1866670; 2150000; 2433330; 2716670; 3000000];
  [0; 0; 0; 0; 0; 391395; 477074; 562753; 648432; 690704; 728152; 765601; 803049; 823708; 841403; 859099; 876794; 885337; 891593; 897848;
  904103; 911407; 919062; 926716; 934370; 938856; 941984; 945111; 948239; 951366; 954494; 957621; 960749; 962938; 964502; 966066; 967630;
  968333; 968333; 968333; 968333; 968333; 968333; 968333; 968333; 968333; 968333; 968333; 968333; 968333; 968333; 968333; 968333; 968333;
  968333; 968333; 968333; 969272; 972399; 975527; 978654; 982173; 986864; 991556; 996247; 1000630; 1003750; 1006880; 1010010; 1013140;
  1016260; 1019390; 1022520; 1045040; 1242070; 1439110; 1636150; 1836630; 2102470; 2368310; 2634160; 2900000];
  [0; 0; 0; 0; 0; 395512; 479415; 563317; 647220; 693268; 729854; 766439; 803024; 825951; 843024; 860098; 877171; 887512; 893366; 899220;
  905073; 911902; 919707; 927512; 935317; 941171; 944098; 947024; 949951; 952878; 955805; 958732; 961659; 964293; 965756; 967219; 968683;
  970000; 970000; 970000; 970000; 970000; 970000; 970000; 970000; 970000; 970000; 970000; 970000; 970000; 970000; 970000; 970000; 970000;
  970000; 970000; 970000; 970000; 971756; 974683; 977610; 980537; 984195; 988585; 992976; 997366; 1001170; 1004100; 1007020; 1009950;
  1012880; 1015810; 1018730; 1021660; 1060880; 1245270; 1429660; 1614050; 1804880; 2053660; 2302440; 2551220; 2800000];
  [0; 0; 0; 0; 0; 399843; 482012; 564181; 646349; 696020; 731763; 767506; 803249; 828390; 844855; 861321; 877787; 889851; 895313; 900775;
  906237; 912321; 920273; 928225; 936177; 943606; 946337; 949068; 951799; 954530; 957261; 959992; 962723; 965454; 967092; 968458; 969823;
  971189; 971667; 971667; 971667; 971667; 971667; 971667; 971667; 971667; 971667; 971667; 971667; 971667; 971667; 971667; 971667; 971667;
  971667; 971667; 971667; 971667; 971667; 974124; 976855; 979586; 982317; 986072; 990169; 994265; 998361; 1001640; 1004370; 1007100;
  1009830; 1012560; 1015290; 1018020; 1020760; 1074280; 1246330; 1418380; 1590430; 1771490; 2003610; 2235740; 2467870; 2700000];
  [0; 0; 0; 0; 0; 404381; 484857; 565333; 645809; 698952; 733873; 768794; 803714; 831016; 846889; 862762; 878635; 892349; 897429; 902508;
  907587; 912667; 920762; 928857; 936952; 945048; 948698; 951238; 953778; 956317; 958857; 961397; 963937; 966476; 968508; 969778; 971048;
  972317; 973333; 973333; 973333; 973333; 973333; 973333; 973333; 973333; 973333; 973333; 973333; 973333; 973333; 973333; 973333; 973333;
  973333; 973333; 973333; 973333; 973333; 973841; 976381; 978921; 981460; 984000; 987810; 991619; 995429; 999238; 1002030; 1004570;
  1007110; 1009650; 1012190; 1014730; 1017270; 1019810; 1085330; 1245330; 1405330; 1565330; 1736510; 1952380; 2168250; 2384130; 2600000];
  [0; 0; 0; 0; 0; 409118; 487941; 566765; 645588; 702059; 736176; 770294; 804412; 833824; 849118; 864412; 879706; 895000; 899706; 904412;
  909118; 913823; 921176; 929412; 937647; 945882; 951176; 953529; 955882; 958235; 960588; 962941; 965294; 967647; 970000; 971177; 972353;
  973529; 974706; 975000; 975000; 975000; 975000; 975000; 975000; 975000; 975000; 975000; 975000; 975000; 975000; 975000; 975000; 975000;
  975000; 975000; 975000; 975000; 975000; 975000; 976177; 978529; 980882; 983235; 985882; 989412; 992941; 996471; 1000000; 1002350;
  1004710; 1007060; 1009410; 1011770; 1014120; 1016470; 1018820; 1094120; 1242350; 1390590; 1538820; 1700000; 1900000; 2100000; 2300000;
  2500000];
  [0; 0; 0; 0; 0; 414047; 491256; 568465; 645674; 705333; 738667; 772000; 805333; 836806; 851535; 866264; 880992; 895721; 902139; 906481;
  910822; 915163; 921519; 929891; 938264; 946636; 953767; 955938; 958109; 960279; 962450; 964620; 966791; 968961; 971132; 972651; 973736;
  974822; 975907; 976667; 976667; 976667; 976667; 976667; 976667; 976667; 976667; 976667; 976667; 976667; 976667; 976667; 976667; 976667;
  976667; 976667; 976667; 976667; 976667; 976667; 976667; 978403; 980574; 982744; 984915; 987628; 990884; 994140; 997395; 1000430;
  1002600; 1004780; 1006950; 1009120; 1011290; 1013460; 1015630; 1017800; 1100710; 1237460; 1374200; 1510950; 1662020; 1846510; 2031010;
  2215500; 2400000];
  [0; 0; 0; 0; 0; 419161; 494793; 570425; 646057; 708770; 741337; 773904; 806471; 839038; 854134; 868310; 882487; 896663; 904724; 908709;
  912694; 916678; 921793; 930299; 938805; 947310; 955816; 958460; 960452; 962444; 964437; 966429; 968421; 970414; 972406; 974199; 975195;
  976192; 977188; 978184; 978333; 978333; 978333; 978333; 978333; 978333; 978333; 978333; 978333; 978333; 978333; 978333; 978333; 978333;
  978333; 978333; 978333; 978333; 978333; 978333; 978333; 978533; 980525; 982517; 984510; 986502; 989241; 992230; 995218; 998207; 1000800;
  1002790; 1004780; 1006770; 1008770; 1010760; 1012750; 1014740; 1016740; 1105200; 1230710; 1356230; 1481750; 1622600; 1791950; 1961300;
  2130650; 2300000];
  [0; 0; 0; 0; 0; 424455; 498545; 572636; 646727; 712364; 744182; 776000; 807818; 839636; 856909; 870545; 884182; 897818; 907455; 911091;
  914727; 918364; 922000; 930636; 939273; 947909; 956545; 961091; 962909; 964727; 966545; 968364; 970182; 972000; 973818; 975636; 976727;
  977636; 978545; 979455; 980000; 980000; 980000; 980000; 980000; 980000; 980000; 980000; 980000; 980000; 980000; 980000; 980000; 980000;
  980000; 980000; 980000; 980000; 980000; 980000; 980000; 980000; 980727; 982545; 984364; 986182; 988000; 990727; 993455; 996182; 998909;
  1001090; 1002910; 1004730; 1006540; 1008360; 1010180; 1012000; 1013820; 1015640; 1107640; 1222180; 1336730; 1451270; 1581820; 1736360;
  1890910; 2045450; 2200000];
  [0; 0; 0; 0; 0; 429921; 502506; 575090; 647674; 716109; 747195; 778281; 809367; 840453; 859854; 872963; 886071; 899180; 910326; 913622;
  916918; 920213; 923509; 930906; 939670; 948434; 957199; 963828; 965476; 967124; 968772; 970419; 972067; 973715; 975363; 977011; 978330;
  979154; 979978; 980802; 981625; 981667; 981667; 981667; 981667; 981667; 981667; 981667; 981667; 981667; 981667; 981667; 981667; 981667;
  981667; 981667; 981667; 981667; 981667; 981667; 981667; 981667; 981667; 982820; 984468; 986116; 987764; 989618; 992090; 994562; 997034;
  999506; 1001320; 1002970; 1004610; 1006260; 1007910; 1009560; 1011210; 1012850; 1014500; 1108100; 1211930; 1315750; 1419570; 1539700;
  1679780; 1819850; 1959930; 2100000];
  [0; 0; 0; 0; 0; 435556; 506667; 577778; 648889; 720000; 750370; 780741; 811111; 841481; 862963; 875556; 888148; 900741; 913333; 916296;
  919259; 922222; 925185; 931111; 940000; 948889; 957778; 966667; 968148; 969630; 971111; 972593; 974074; 975556; 977037; 978519; 980000;
  980741; 981481; 982222; 982963; 983333; 983333; 983333; 983333; 983333; 983333; 983333; 983333; 983333; 983333; 983333; 983333; 983333;
  983333; 983333; 983333; 983333; 983333; 983333; 983333; 983333; 983333; 983333; 984815; 986296; 987778; 989259; 991111; 993333; 995556;
  997778; 1000000; 1001480; 1002960; 1004440; 1005930; 1007410; 1008890; 1010370; 1011850; 1013330; 1106670; 1200000; 1293330; 1386670;
  1496300; 1622220; 1748150; 1874070; 2000000];
  [0; 0; 0; 0; 0; 441352; 511022; 580692; 650363; 720033; 753703; 783374; 813044; 842714; 866231; 878319; 890407; 902494; 914582; 919110;
  921747; 924385; 927022; 931253; 940264; 949275; 958286; 967297; 970923; 972242; 973560; 974879; 976198; 977516; 978835; 980154; 981472;
  982396; 983055; 983714; 984374; 985000; 985000; 985000; 985000; 985000; 985000; 985000; 985000; 985000; 985000; 985000; 985000; 985000;
  985000; 985000; 985000; 985000; 985000; 985000; 985000; 985000; 985000; 985000; 985396; 986714; 988033; 989352; 990670; 992483; 994462;
  996440; 998418; 1000260; 1001580; 1002900; 1004220; 1005540; 1006860; 1008180; 1009500; 1010810; 1020310; 1103380; 1186460; 1269540;
  1352620; 1451650; 1563740; 1675820; 1787910; 1900000];
  [0; 0; 0; 0; 0; 447304; 515565; 583826; 652087; 720348; 757188; 786174; 815159; 844145; 869652; 881246; 892841; 904435; 916029; 922058;
  924377; 926696; 929014; 931333; 940464; 949594; 958725; 967855; 973797; 974957; 976116; 977275; 978435; 979594; 980754; 981913; 983072;
  984116; 984696; 985275; 985855; 986435; 986667; 986667; 986667; 986667; 986667; 986667; 986667; 986667; 986667; 986667; 986667; 986667;
  986667; 986667; 986667; 986667; 986667; 986667; 986667; 986667; 986667; 986667; 986667; 987362; 988522; 989681; 990841; 992000; 993739;
  995478; 997217; 998957; 1000460; 1001620; 1002780; 1003940; 1005100; 1006260; 1007420; 1008580; 1009740; 1025280; 1098320; 1171360;
  1244410; 1317450; 1405800; 1504350; 1602900; 1701450; 1800000];
  [0; 0; 0; 0; 0; 453409; 520290; 587172; 654054; 720935; 760821; 789136; 817452; 845767; 873222; 884333; 895444; 906556; 917667; 925136;
  927143; 929151; 931158; 933165; 940602; 949849; 959097; 968344; 976767; 977771; 978774; 979778; 980781; 981785; 982789; 983792; 984796;
  985799; 986401; 986903; 987405; 987907; 988333; 988333; 988333; 988333; 988333; 988333; 988333; 988333; 988333; 988333; 988333; 988333;
  988333; 988333; 988333; 988333; 988333; 988333; 988333; 988333; 988333; 988333; 988333; 988333; 989237; 990240; 991244; 992247; 993376;
  994882; 996387; 997892; 999398; 1000600; 1001610; 1002610; 1003610; 1004620; 1005620; 1006620; 1007630; 1008630; 1028300; 1091530;
  1154750; 1217980; 1281200; 1358780; 1444090; 1529390; 1614690; 1700000];
  [0; 0; 0; 0; 0; 459660; 525191; 590723; 656255; 721787; 764596; 792255; 819915; 847574; 875234; 887574; 898213; 908851; 919489; 928340;
  930043; 931745; 933447; 935149; 940681; 950043; 959404; 968766; 978128; 980681; 981532; 982383; 983234; 984085; 984936; 985787; 986638;
  987489; 988170; 988596; 989021; 989447; 989872; 990000; 990000; 990000; 990000; 990000; 990000; 990000; 990000; 990000; 990000; 990000;
  990000; 990000; 990000; 990000; 990000; 990000; 990000; 990000; 990000; 990000; 990000; 990000; 990170; 991021; 991872; 992723; 993575;
  994638; 995915; 997191; 998468; 999745; 1000680; 1001530; 1002380; 1003230; 1004080; 1004940; 1005790; 1006640; 1007490; 1029450;
  1083060; 1136680; 1190300; 1243910; 1310640; 1382980; 1455320; 1527660; 1600000];
  [0; 0; 0; 0; 0; 466053; 530263; 594474; 658684; 722895; 768509; 795526; 822544; 849561; 876579; 890965; 901140; 911316; 921491; 931667;
  933070; 934474; 935877; 937281; 940702; 950175; 959649; 969123; 978597; 983684; 984386; 985088; 985789; 986491; 987193; 987895; 988596;
  989298; 990000; 990351; 990702; 991053; 991404; 991667; 991667; 991667; 991667; 991667; 991667; 991667; 991667; 991667; 991667; 991667;
  991667; 991667; 991667; 991667; 991667; 991667; 991667; 991667; 991667; 991667; 991667; 991667; 991667; 992018; 992719; 993421; 994123;
  994825; 995789; 996842; 997895; 998947; 1000000; 1000700; 1001400; 1002100; 1002810; 1003510; 1004210; 1004910; 1005610; 1006320;
  1028770; 1072980; 1117190; 1161400; 1205610; 1261400; 1321050; 1380700; 1440350; 1500000];
  [0; 0; 0; 0; 0; 472583; 535500; 598417; 661333; 724250; 772556; 798944; 825333; 851722; 878111; 894500; 904222; 913944; 923667; 933389;
  936222; 937333; 938444; 939556; 940667; 950250; 959833; 969417; 979000; 986778; 987333; 987889; 988444; 989000; 989556; 990111; 990667;
  991222; 991778; 992167; 992444; 992722; 993000; 993278; 993333; 993333; 993333; 993333; 993333; 993333; 993333; 993333; 993333; 993333;
  993333; 993333; 993333; 993333; 993333; 993333; 993333; 993333; 993333; 993333; 993333; 993333; 993333; 993333; 993778; 994333; 994889;
  995444; 996000; 996833; 997667; 998500; 999333; 1000110; 1000670; 1001220; 1001780; 1002330; 1002890; 1003440; 1004000; 1004560;
  1005110; 1026330; 1061330; 1096330; 1131330; 1166330; 1211110; 1258330; 1305560; 1352780; 1400000];
  [0; 0; 0; 0; 0; 479247; 540897; 602546; 664196; 725845; 776732; 802505; 828278; 854052; 879825; 898175; 907454; 916732; 926010; 935289;
  939495; 940320; 941144; 941969; 942794; 950268; 959959; 969649; 979340; 989031; 990371; 990784; 991196; 991608; 992021; 992433; 992845;
  993258; 993670; 994041; 994247; 994454; 994660; 994866; 995000; 995000; 995000; 995000; 995000; 995000; 995000; 995000; 995000; 995000;
  995000; 995000; 995000; 995000; 995000; 995000; 995000; 995000; 995000; 995000; 995000; 995000; 995000; 995000; 995041; 995454; 995866;
  996278; 996691; 997155; 997773; 998392; 999010; 999629; 1000160; 1000580; 1000990; 1001400; 1001810; 1002230; 1002640; 1003050; 1003460;
  1003880; 1022190; 1048160; 1074140; 1100120; 1126100; 1159790; 1194840; 1229900; 1264950; 1300000];
  [0; 0; 0; 0; 0; 486041; 546449; 606857; 667265; 727673; 781034; 806204; 831374; 856544; 881714; 901986; 910830; 919673; 928517; 937361;
  942884; 943429; 943973; 944517; 945061; 950231; 960027; 969823; 979619; 989415; 993497; 993769; 994041; 994313; 994585; 994857; 995129;
  995401; 995673; 995946; 996109; 996245; 996381; 996517; 996653; 996667; 996667; 996667; 996667; 996667; 996667; 996667; 996667; 996667;
  996667; 996667; 996667; 996667; 996667; 996667; 996667; 996667; 996667; 996667; 996667; 996667; 996667; 996667; 996667; 996776; 997048;
  997320; 997592; 997864; 998204; 998612; 999020; 999429; 999837; 1000160; 1000430; 1000710; 1000980; 1001250; 1001520; 1001800; 1002070;
  1002340; 1002610; 1016380; 1033520; 1050670; 1067810; 1084950; 1107480; 1130610; 1153740; 1176870; 1200000];
  [0; 0; 0; 0; 0; 492960; 552152; 611343; 670535; 729727; 785458; 810037; 834616; 859195; 883774; 905929; 914347; 922764; 931182; 939599;
  946387; 946657; 946926; 947195; 947465; 950141; 960040; 969939; 979838; 989737; 996707; 996842; 996976; 997111; 997246; 997380; 997515;
  997650; 997785; 997919; 998027; 998094; 998162; 998229; 998296; 998333; 998333; 998333; 998333; 998333; 998333; 998333; 998333; 998333;
  998333; 998333; 998333; 998333; 998333; 998333; 998333; 998333; 998333; 998333; 998333; 998333; 998333; 998333; 998333; 998333; 998428;
  998562; 998697; 998832; 998966; 999152; 999354; 999556; 999758; 999960; 1000110; 1000240; 1000380; 1000510; 1000650; 1000780; 1000920;
  1001050; 1001190; 1001320; 1008970; 1017450; 1025940; 1034420; 1042910; 1054210; 1065660; 1077110; 1088550; 1100000];
  [0; 0; 0; 0; 0; 500000; 558000; 616000; 674000; 732000; 790000; 814000; 838000; 862000; 886000; 910000; 918000; 926000; 934000; 942000;
  950000; 950000; 950000; 950000; 950000; 950000; 960000; 970000; 980000; 990000; 1000000; 1000000; 1000000; 1000000; 1000000; 1000000;
  1000000; 1000000; 1000000; 1000000; 1000000; 1000000; 1000000; 1000000; 1000000; 1000000; 1000000; 1000000; 1000000; 1000000; 1000000;
  1000000; 1000000; 1000000; 1000000; 1000000; 1000000; 1000000; 1000000; 1000000; 1000000; 1000000; 1000000; 1000000; 1000000; 1000000;
  1000000; 1000000; 1000000; 1000000; 1000000; 1000000; 1000000; 1000000; 1000000; 1000000; 1000000; 1000000; 1000000; 1000000; 1000000;
  1000000; 1000000; 1000000; 1000000; 1000000; 1000000; 1000000; 1000000; 1000000; 1000000; 1000000; 1000000; 1000000; 1000000; 1000000;
  1000000; 1000000; 1000000; 1000000; 1000000];
  [0; 0; 0; 0; 0; 0; 578000; 626000; 674000; 722000; 770000; 818000; 836909; 855818; 874727; 893636; 912546; 924546; 929636; 934727;
  939818; 944909; 950000; 951818; 953636; 955455; 957273; 959091; 963636; 970909; 978182; 985455; 992727; 1000000; 1000000; 1000000;
  1000000; 1000000; 1000000; 1000000; 1000000; 1000000; 1000000; 1000000; 1000000; 1000000; 1000000; 1000000; 1000000; 1000000; 1000000;
  1000000; 1000000; 1000000; 1000000; 1000000; 1000000; 1000000; 1000000; 1000000; 1000000; 1000000; 1000000; 1000000; 1000000; 1000000;
  1000000; 1000000; 1000000; 1000000; 1000000; 1000000; 1000000; 1000000; 1000000; 1000000; 1000000; 1000000; 1000000; 1000000; 1000000;
  1000000; 1000000; 1000000; 1000000; 1000000; 1000000; 1000000; 1000000; 1000000; 1000000; 1000000; 1000000; 1000000; 1000000; 1000000;
  1000000; 1000000; 1000000; 1000000; 1000000; 1000000];
  [0; 0; 0; 0; 0; 0; 608000; 647667; 687333; 727000; 766667; 806333; 846000; 860667; 875333; 890000; 904667; 919333; 934000; 936667;
  939333; 942000; 944667; 947333; 950000; 953333; 956667; 960000; 963333; 966667; 970000; 975000; 980000; 985000; 990000; 995000; 1000000;
  1000000; 1000000; 1000000; 1000000; 1000000; 1000000; 1000000; 1000000; 1000000; 1000000; 1000000; 1000000; 1000000; 1000000; 1000000;
  1000000; 1000000; 1000000; 1000000; 1000000; 1000000; 1000000; 1000000; 1000000; 1000000; 1000000; 1000000; 1000000; 1000000; 1000000;
  1000000; 1000000; 1000000; 1000000; 1000000; 1000000; 1000000; 1000000; 1000000; 1000000; 1000000; 1000000; 1000000; 1000000; 1000000;
  1000000; 1000000; 1000000; 1000000; 1000000; 1000000; 1000000; 1000000; 1000000; 1000000; 1000000; 1000000; 1000000; 1000000; 1000000;
  1000000; 1000000; 1000000; 1000000; 1000000; 1000000];
  [0; 0; 0; 0; 0; 0; 0; 678308; 710923; 743538; 776154; 808769; 841385; 874000; 885077; 896154; 907231; 918308; 929385; 940462; 946308;
  946923; 947538; 948154; 948769; 949385; 950000; 954615; 959231; 963846; 968462; 973077; 977692; 981538; 984615; 987692; 990769; 993846;
  996923; 1000000; 1000000; 1000000; 1000000; 1000000; 1000000; 1000000; 1000000; 1000000; 1000000; 1000000; 1000000; 1000000; 1000000;
  1000000; 1000000; 1000000; 1000000; 1000000; 1000000; 1000000; 1000000; 1000000; 1000000; 1000000; 1000000; 1000000; 1000000; 1000000;
  1000000; 1000000; 1000000; 1000000; 1000000; 1000000; 1000000; 1000000; 1000000; 1000000; 1000000; 1000000; 1000000; 1000000; 1000000;
  1000000; 1000000; 1000000; 1000000; 1000000; 1000000; 1000000; 1000000; 1000000; 1000000; 1000000; 1000000; 1000000; 1000000; 1000000;
  1000000; 1000000; 1000000; 1000000; 1000000; 1000000];
  [0; 0; 0; 0; 0; 0; 0; 716000; 742571; 769143; 795714; 822286; 848857; 875429; 902000; 910000; 918000; 926000; 934000; 942000; 950000;
  958000; 956857; 955714; 954571; 953429; 952286; 951143; 950000; 955714; 961429; 967143; 972857; 978571; 984286; 990000; 991429; 992857;
  994286; 995714; 997143; 998571; 1000000; 1000000; 1000000; 1000000; 1000000; 1000000; 1000000; 1000000; 1000000; 1000000; 1000000;
  1000000; 1000000; 1000000; 1000000; 1000000; 1000000; 1000000; 1000000; 1000000; 1000000; 1000000; 1000000; 1000000; 1000000; 1000000;
  1000000; 1000000; 1000000; 1000000; 1000000; 1000000; 1000000; 1000000; 1000000; 1000000; 1000000; 1000000; 1000000; 1000000; 1000000;
  1000000; 1000000; 1000000; 1000000; 1000000; 1000000; 1000000; 1000000; 1000000; 1000000; 1000000; 1000000; 1000000; 1000000; 1000000;
  1000000; 1000000; 1000000; 1000000; 1000000; 1000000; 1000000];
  [0; 0; 0; 0; 0; 0; 0; 0; 780667; 802000; 823333; 844667; 866000; 887333; 908667; 930000; 935333; 940667; 946000; 951333; 956667; 962000;
  967333; 968667; 966000; 963333; 960667; 958000; 955333; 952667; 950000; 956667; 963333; 970000; 976667; 983333; 990000; 996667; 1000000;
  1000000; 1000000; 1000000; 1000000; 1000000; 1000000; 1000000; 1000000; 1000000; 1000000; 1000000; 1000000; 1000000; 1000000; 1000000;
  1000000; 1000000; 1000000; 1000000; 1000000; 1000000; 1000000; 1000000; 1000000; 1000000; 1000000; 1000000; 1000000; 1000000; 1000000;
  1000000; 1000000; 1000000; 1000000; 1000000; 1000000; 1000000; 1000000; 1000000; 1000000; 1000000; 1000000; 1000000; 1000000; 1000000;
  1000000; 1000000; 1000000; 1000000; 1000000; 1000000; 1000000; 1000000; 1000000; 1000000; 1000000; 1000000; 1000000; 1000000; 1000000;
  1000000; 1000000; 1000000; 1000000; 1000000; 1000000; 1000000];
  [0; 0; 0; 0; 0; 0; 0; 0; 790000; 808250; 826500; 844750; 863000; 881250; 899500; 917750; 936000; 940500; 945000; 949500; 954000; 958500;
  963000; 967500; 972000; 970500; 969000; 967500; 966000; 964500; 963000; 961500; 960000; 965000; 970000; 975000; 980000; 985000; 990000;
  995000; 1000000; 1000000; 1000000; 1000000; 1000000; 1000000; 1000000; 1000000; 1000000; 1000000; 1000000; 1000000; 1000000; 1000000;
  1000000; 1000000; 1000000; 1000000; 1000000; 1000000; 1000000; 1000000; 1000000; 1000000; 1000000; 1000000; 1000000; 1000000; 1000000;
  1000000; 1000000; 1000000; 1000000; 1000000; 1000000; 1000000; 1000000; 1000000; 1000000; 1000000; 1000000; 1000000; 1000000; 1000000;
  1000000; 1000000; 1000000; 1000000; 1000000; 1000000; 1000000; 1000000; 1000000; 1000000; 1000000; 1000000; 1000000; 1000000; 1000000;
  1000000; 1000000; 1000000; 1000000; 1000000; 1000000; 1000000; 1000000];
  [0; 0; 0; 0; 0; 0; 0; 0; 0; 817765; 833294; 848824; 864353; 879882; 895412; 910941; 926471; 942000; 945765; 949529; 953294; 957059;
  960824; 964588; 968353; 972118; 973765; 973294; 972824; 972353; 971882; 971412; 970941; 970471; 970000; 973529; 977059; 980588; 984118;
  987647; 991176; 994706; 998235; 1000000; 1000000; 1000000; 1000000; 1000000; 1000000; 1000000; 1000000; 1000000; 1000000; 1000000;
  1000000; 1000000; 1000000; 1000000; 1000000; 1000000; 1000000; 1000000; 1000000; 1000000; 1000000; 1000000; 1000000; 1000000; 1000000;
  1000000; 1000000; 1000000; 1000000; 1000000; 1000000; 1000000; 1000000; 1000000; 1000000; 1000000; 1000000; 1000000; 1000000; 1000000;
  1000000; 1000000; 1000000; 1000000; 1000000; 1000000; 1000000; 1000000; 1000000; 1000000; 1000000; 1000000; 1000000; 1000000; 1000000;
  1000000; 1000000; 1000000; 1000000; 1000000; 1000000; 1000000; 1000000; 1000000];
  [0; 0; 0; 0; 0; 0; 0; 0; 0; 830000; 843111; 856222; 869333; 882444; 895556; 908667; 921778; 934889; 948000; 951111; 954222; 957333;
  960444; 963556; 966667; 969778; 972889; 976000; 976444; 976889; 977333; 977778; 978222; 978667; 979111; 979556; 980000; 982222; 984444;
  986667; 988889; 991111; 993333; 995556; 997778; 1000000; 1000000; 1000000; 1000000; 1000000; 1000000; 1000000; 1000000; 1000000;
  1000000; 1000000; 1000000; 1000000; 1000000; 1000000; 1000000; 1000000; 1000000; 1000000; 1000000; 1000000; 1000000; 1000000; 1000000;
  1000000; 1000000; 1000000; 1000000; 1000000; 1000000; 1000000; 1000000; 1000000; 1000000; 1000000; 1000000; 1000000; 1000000; 1000000;
  1000000; 1000000; 1000000; 1000000; 1000000; 1000000; 1000000; 1000000; 1000000; 1000000; 1000000; 1000000; 1000000; 1000000; 1000000;
  1000000; 1000000; 1000000; 1000000; 1000000; 1000000; 1000000; 1000000; 1000000; 1000000];
  [0; 0; 0; 0; 0; 0; 0; 0; 0; 0; 855474; 866421; 877368; 888316; 899263; 910211; 921158; 932105; 943053; 954000; 956526; 959053; 961579;
  964105; 966632; 969158; 971684; 974211; 976737; 978632; 979895; 981158; 982421; 983684; 984947; 986211; 987474; 988737; 990000; 991053;
  992105; 993158; 994211; 995263; 996316; 997368; 998421; 999474; 1000000; 1000000; 1000000; 1000000; 1000000; 1000000; 1000000; 1000000;
  1000000; 1000000; 1000000; 1000000; 1000000; 1000000; 1000000; 1000000; 1000000; 1000000; 1000000; 1000000; 1000000; 1000000; 1000000;
  1000000; 1000000; 1000000; 1000000; 1000000; 1000000; 1000000; 1000000; 1000000; 1000000; 1000000; 1000000; 1000000; 1000000; 1000000;
  1000000; 1000000; 1000000; 1000000; 1000000; 1000000; 1000000; 1000000; 1000000; 1000000; 1000000; 1000000; 1000000; 1000000; 1000000;
  1000000; 1000000; 1000000; 1000000; 1000000; 1000000; 1000000; 1000000; 1000000];
  [0; 0; 0; 0; 0; 0; 0; 0; 0; 0; 870000; 879000; 888000; 897000; 906000; 915000; 924000; 933000; 942000; 951000; 960000; 962000; 964000;
  966000; 968000; 970000; 972000; 974000; 976000; 978000; 980000; 982000; 984000; 986000; 988000; 990000; 992000; 994000; 996000; 998000;
  1000000; 1000000; 1000000; 1000000; 1000000; 1000000; 1000000; 1000000; 1000000; 1000000; 1000000; 1000000; 1000000; 1000000; 1000000;
  1000000; 1000000; 1000000; 1000000; 1000000; 1000000; 1000000; 1000000; 1000000; 1000000; 1000000; 1000000; 1000000; 1000000; 1000000;
  1000000; 1000000; 1000000; 1000000; 1000000; 1000000; 1000000; 1000000; 1000000; 1000000; 1000000; 1000000; 1000000; 1000000; 1000000;
  1000000; 1000000; 1000000; 1000000; 1000000; 1000000; 1000000; 1000000; 1000000; 1000000; 1000000; 1000000; 1000000; 1000000; 1000000;
  1000000; 1000000; 1000000; 1000000; 1000000; 1000000; 1000000; 1000000; 1000000; 1000000; 1000000];
  [0; 0; 0; 0; 0; 0; 0; 0; 0; 0; 0; 884000; 892000; 900000; 908000; 916000; 924000; 932000; 940000; 948000; 956000; 964000; 965714;
  967429; 969143; 970857; 972571; 974286; 976000; 977714; 979429; 981143; 982857; 984571; 986286; 988000; 989714; 991429; 993143; 994857;
  996571; 998286; 1000000; 1000000; 1000000; 1000000; 1000000; 1000000; 1000000; 1000000; 1000000; 1000000; 1000000; 1000000; 1000000;
  1000000; 1000000; 1000000; 1000000; 1000000; 1000000; 1000000; 1000000; 1000000; 1000000; 1000000; 1000000; 1000000; 1000000; 1000000;
  1000000; 1000000; 1000000; 1000000; 1000000; 1000000; 1000000; 1000000; 1000000; 1000000; 1000000; 1000000; 1000000; 1000000; 1000000;
  1000000; 1000000; 1000000; 1000000; 1000000; 1000000; 1000000; 1000000; 1000000; 1000000; 1000000; 1000000; 1000000; 1000000; 1000000;
  1000000; 1000000; 1000000; 1000000; 1000000; 1000000; 1000000; 1000000; 1000000; 1000000; 1000000; 1000000];
  [0; 0; 0; 0; 0; 0; 0; 0; 0; 0; 0; 890000; 897091; 904182; 911273; 918364; 925455; 932545; 939636; 946727; 953818; 960909; 968000;
  969455; 970909; 972364; 973818; 975273; 976727; 978182; 979636; 981091; 982545; 984000; 985455; 986909; 988364; 989818; 991273; 992727;
  994182; 995636; 997091; 998545; 1000000; 1000000; 1000000; 1000000; 1000000; 1000000; 1000000; 1000000; 1000000; 1000000; 1000000;
  1000000; 1000000; 1000000; 1000000; 1000000; 1000000; 1000000; 1000000; 1000000; 1000000; 1000000; 1000000; 1000000; 1000000; 1000000;
  1000000; 1000000; 1000000; 1000000; 1000000; 1000000; 1000000; 1000000; 1000000; 1000000; 1000000; 1000000; 1000000; 1000000; 1000000;
  1000000; 1000000; 1000000; 1000000; 1000000; 1000000; 1000000; 1000000; 1000000; 1000000; 1000000; 1000000; 1000000; 1000000; 1000000;
  1000000; 1000000; 1000000; 1000000; 1000000; 1000000; 1000000; 1000000; 1000000; 1000000; 1000000; 1000000; 1000000];
  [0; 0; 0; 0; 0; 0; 0; 0; 0; 0; 0; 0; 903130; 909391; 915652; 921913; 928174; 934435; 940696; 946957; 953217; 959478; 965739; 972000;
  973217; 974435; 975652; 976870; 978087; 979304; 980522; 981739; 982957; 984174; 985391; 986609; 987826; 989043; 990261; 991478; 992696;
  993913; 995130; 996348; 997565; 998783; 1000000; 1000000; 1000000; 1000000; 1000000; 1000000; 1000000; 1000000; 1000000; 1000000;
  1000000; 1000000; 1000000; 1000000; 1000000; 1000000; 1000000; 1000000; 1000000; 1000000; 1000000; 1000000; 1000000; 1000000; 1000000;
  1000000; 1000000; 1000000; 1000000; 1000000; 1000000; 1000000; 1000000; 1000000; 1000000; 1000000; 1000000; 1000000; 1000000; 1000000;
  1000000; 1000000; 1000000; 1000000; 1000000; 1000000; 1000000; 1000000; 1000000; 1000000; 1000000; 1000000; 1000000; 1000000; 1000000;
  1000000; 1000000; 1000000; 1000000; 1000000; 1000000; 1000000; 1000000; 1000000; 1000000; 1000000; 1000000; 1000000];
  [0; 0; 0; 0; 0; 0; 0; 0; 0; 0; 0; 0; 910000; 915500; 921000; 926500; 932000; 937500; 943000; 948500; 954000; 959500; 965000; 970500;
  976000; 977000; 978000; 979000; 980000; 981000; 982000; 983000; 984000; 985000; 986000; 987000; 988000; 989000; 990000; 991000; 992000;
  993000; 994000; 995000; 996000; 997000; 998000; 999000; 1000000; 1000000; 1000000; 1000000; 1000000; 1000000; 1000000; 1000000; 1000000;
  1000000; 1000000; 1000000; 1000000; 1000000; 1000000; 1000000; 1000000; 1000000; 1000000; 1000000; 1000000; 1000000; 1000000; 1000000;
  1000000; 1000000; 1000000; 1000000; 1000000; 1000000; 1000000; 1000000; 1000000; 1000000; 1000000; 1000000; 1000000; 1000000; 1000000;
  1000000; 1000000; 1000000; 1000000; 1000000; 1000000; 1000000; 1000000; 1000000; 1000000; 1000000; 1000000; 1000000; 1000000; 1000000;
  1000000; 1000000; 1000000; 1000000; 1000000; 1000000; 1000000; 1000000; 1000000; 1000000; 1000000; 1000000; 1000000];
  [0; 0; 0; 0; 0; 0; 0; 0; 0; 0; 0; 0; 0; 922400; 927200; 932000; 936800; 941600; 946400; 951200; 956000; 960800; 965600; 970400; 975200;
  980000; 980800; 981600; 982400; 983200; 984000; 984800; 985600; 986400; 987200; 988000; 988800; 989600; 990400; 991200; 992000; 992800;
  993600; 994400; 995200; 996000; 996800; 997600; 998400; 999200; 1000000; 1000000; 1000000; 1000000; 1000000; 1000000; 1000000; 1000000;
  1000000; 1000000; 1000000; 1000000; 1000000; 1000000; 1000000; 1000000; 1000000; 1000000; 1000000; 1000000; 1000000; 1000000; 1000000;
  1000000; 1000000; 1000000; 1000000; 1000000; 1000000; 1000000; 1000000; 1000000; 1000000; 1000000; 1000000; 1000000; 1000000; 1000000;
  1000000; 1000000; 1000000; 1000000; 1000000; 1000000; 1000000; 1000000; 1000000; 1000000; 1000000; 1000000; 1000000; 1000000; 1000000;
  1000000; 1000000; 1000000; 1000000; 1000000; 1000000; 1000000; 1000000; 1000000; 1000000; 1000000; 1000000; 1000000];
  [0; 0; 0; 0; 0; 0; 0; 0; 0; 0; 0; 0; 0; 930000; 934154; 938308; 942462; 946615; 950769; 954923; 959077; 963231; 967385; 971538; 975692;
  979846; 984000; 984615; 985231; 985846; 986462; 987077; 987692; 988308; 988923; 989538; 990154; 990769; 991385; 992000; 992615; 993231;
  993846; 994462; 995077; 995692; 996308; 996923; 997538; 998154; 998769; 999385; 1000000; 1000000; 1000000; 1000000; 1000000; 1000000;
  1000000; 1000000; 1000000; 1000000; 1000000; 1000000; 1000000; 1000000; 1000000; 1000000; 1000000; 1000000; 1000000; 1000000; 1000000;
  1000000; 1000000; 1000000; 1000000; 1000000; 1000000; 1000000; 1000000; 1000000; 1000000; 1000000; 1000000; 1000000; 1000000; 1000000;
  1000000; 1000000; 1000000; 1000000; 1000000; 1000000; 1000000; 1000000; 1000000; 1000000; 1000000; 1000000; 1000000; 1000000; 1000000;
  1000000; 1000000; 1000000; 1000000; 1000000; 1000000; 1000000; 1000000; 1000000; 1000000; 1000000; 1000000; 1000000; 1000000];
  [0; 0; 0; 0; 0; 0; 0; 0; 0; 0; 0; 0; 0; 0; 941778; 945333; 948889; 952444; 956000; 959556; 963111; 966667; 970222; 973778; 977333;
  980889; 984444; 988000; 988444; 988889; 989333; 989778; 990222; 990667; 991111; 991556; 992000; 992444; 992889; 993333; 993778; 994222;
  994667; 995111; 995556; 996000; 996444; 996889; 997333; 997778; 998222; 998667; 999111; 999556; 1000000; 1000000; 1000000; 1000000;
  1000000; 1000000; 1000000; 1000000; 1000000; 1000000; 1000000; 1000000; 1000000; 1000000; 1000000; 1000000; 1000000; 1000000; 1000000;
  1000000; 1000000; 1000000; 1000000; 1000000; 1000000; 1000000; 1000000; 1000000; 1000000; 1000000; 1000000; 1000000; 1000000; 1000000;
  1000000; 1000000; 1000000; 1000000; 1000000; 1000000; 1000000; 1000000; 1000000; 1000000; 1000000; 1000000; 1000000; 1000000; 1000000;
  1000000; 1000000; 1000000; 1000000; 1000000; 1000000; 1000000; 1000000; 1000000; 1000000; 1000000; 1000000; 1000000; 1000000; 1000000];
  [0; 0; 0; 0; 0; 0; 0; 0; 0; 0; 0; 0; 0; 0; 950000; 953000; 956000; 959000; 962000; 965000; 968000; 971000; 974000; 977000; 980000;
  983000; 986000; 989000; 992000; 992286; 992571; 992857; 993143; 993429; 993714; 994000; 994286; 994571; 994857; 995143; 995429; 995714;
  996000; 996286; 996571; 996857; 997143; 997429; 997714; 998000; 998286; 998571; 998857; 999143; 999429; 999714; 1000000; 1000000;
  1000000; 1000000; 1000000; 1000000; 1000000; 1000000; 1000000; 1000000; 1000000; 1000000; 1000000; 1000000; 1000000; 1000000; 1000000;
  1000000; 1000000; 1000000; 1000000; 1000000; 1000000; 1000000; 1000000; 1000000; 1000000; 1000000; 1000000; 1000000; 1000000; 1000000;
  1000000; 1000000; 1000000; 1000000; 1000000; 1000000; 1000000; 1000000; 1000000; 1000000; 1000000; 1000000; 1000000; 1000000; 1000000;
  1000000; 1000000; 1000000; 1000000; 1000000; 1000000; 1000000; 1000000; 1000000; 1000000; 1000000; 1000000; 1000000; 1000000; 1000000;
  1000000];
  [0; 0; 0; 0; 0; 0; 0; 0; 0; 0; 0; 0; 0; 0; 0; 961241; 963724; 966207; 968690; 971172; 973655; 976138; 978621; 981103; 983586; 986069;
  988552; 991035; 993517; 996000; 996138; 996276; 996414; 996552; 996690; 996828; 996966; 997103; 997241; 997379; 997517; 997655; 997793;
  997931; 998069; 998207; 998345; 998483; 998621; 998759; 998897; 999035; 999172; 999310; 999448; 999586; 999724; 999862; 1000000;
  1000000; 1000000; 1000000; 1000000; 1000000; 1000000; 1000000; 1000000; 1000000; 1000000; 1000000; 1000000; 1000000; 1000000; 1000000;
  1000000; 1000000; 1000000; 1000000; 1000000; 1000000; 1000000; 1000000; 1000000; 1000000; 1000000; 1000000; 1000000; 1000000; 1000000;
  1000000; 1000000; 1000000; 1000000; 1000000; 1000000; 1000000; 1000000; 1000000; 1000000; 1000000; 1000000; 1000000; 1000000; 1000000;
  1000000; 1000000; 1000000; 1000000; 1000000; 1000000; 1000000; 1000000; 1000000; 1000000; 1000000; 1000000; 1000000; 1000000; 1000000;
  1000000];
  [0; 0; 0; 0; 0; 0; 0; 0; 0; 0; 0; 0; 0; 0; 0; 970000; 972000; 974000; 976000; 978000; 980000; 982000; 984000; 986000; 988000; 990000;
  992000; 994000; 996000; 998000; 1000000; 1000000; 1000000; 1000000; 1000000; 1000000; 1000000; 1000000; 1000000; 1000000; 1000000;
  1000000; 1000000; 1000000; 1000000; 1000000; 1000000; 1000000; 1000000; 1000000; 1000000; 1000000; 1000000; 1000000; 1000000; 1000000;
  1000000; 1000000; 1000000; 1000000; 1000000; 1000000; 1000000; 1000000; 1000000; 1000000; 1000000; 1000000; 1000000; 1000000; 1000000;
  1000000; 1000000; 1000000; 1000000; 1000000; 1000000; 1000000; 1000000; 1000000; 1000000; 1000000; 1000000; 1000000; 1000000; 1000000;
  1000000; 1000000; 1000000; 1000000; 1000000; 1000000; 1000000; 1000000; 1000000; 1000000; 1000000; 1000000; 1000000; 1000000; 1000000;
  1000000; 1000000; 1000000; 1000000; 1000000; 1000000; 1000000; 1000000; 1000000; 1000000; 1000000; 1000000; 1000000; 1000000; 1000000;
  1000000; 1000000; 1000000; 1000000; 1000000];
  [0; 0; 0; 0; 0; 0; 0; 0; 0; 0; 0; 0; 0; 0; 0; 970000; 972000; 974000; 976000; 978000; 980000; 982000; 984000; 986000; 988000; 990000;
  992000; 994000; 996000; 998000; 1000000; 1000000; 1000000; 1000000; 1000000; 1000000; 1000000; 1000000; 1000000; 1000000; 1000000;
  1000000; 1000000; 1000000; 1000000; 1000000; 1000000; 1000000; 1000000; 1000000; 1000000; 1000000; 1000000; 1000000; 1000000; 1000000;
  1000000; 1000000; 1000000; 1000000; 1000000; 1000000; 1000000; 1000000; 1000000; 1000000; 1000000; 1000000; 1000000; 1000000; 1000000;
  1000000; 1000000; 1000000; 1000000; 1000000; 1000000; 1000000; 1000000; 1000000; 1000000; 1000000; 1000000; 1000000; 1000000; 1000000;
  1000000; 1000000; 1000000; 1000000; 1000000; 1000000; 1000000; 1000000; 1000000; 1000000; 1000000; 1000000; 1000000; 1000000; 1000000;
  1000000; 1000000; 1000000; 1000000; 1000000; 1000000; 1000000; 1000000; 1000000; 1000000; 1000000; 1000000; 1000000; 1000000; 1000000;
  1000000; 1000000; 1000000; 1000000; 1000000; 1000000];
  [0; 0; 0; 0; 0; 0; 0; 0; 0; 0; 0; 0; 0; 0; 0; 970000; 972000; 974000; 976000; 978000; 980000; 982000; 984000; 986000; 988000; 990000;
  992000; 994000; 996000; 998000; 1000000; 1000000; 1000000; 1000000; 1000000; 1000000; 1000000; 1000000; 1000000; 1000000; 1000000;
  1000000; 1000000; 1000000; 1000000; 1000000; 1000000; 1000000; 1000000; 1000000; 1000000; 1000000; 1000000; 1000000; 1000000; 1000000;
  1000000; 1000000; 1000000; 1000000; 1000000; 1000000; 1000000; 1000000; 1000000; 1000000; 1000000; 1000000; 1000000; 1000000; 1000000;
  1000000; 1000000; 1000000; 1000000; 1000000; 1000000; 1000000; 1000000; 1000000; 1000000; 1000000; 1000000; 1000000; 1000000; 1000000;
  1000000; 1000000; 1000000; 1000000; 1000000; 1000000; 1000000; 1000000; 1000000; 1000000; 1000000; 1000000; 1000000; 1000000; 1000000;
  1000000; 1000000; 1000000; 1000000; 1000000; 1000000; 1000000; 1000000; 1000000; 1000000; 1000000; 1000000; 1000000; 1000000; 1000000;
  1000000; 1000000; 1000000; 1000000; 1000000; 1000000; 1000000];
  [0; 0; 0; 0; 0; 0; 0; 0; 0; 0; 0; 0; 0; 0; 0; 970000; 972000; 974000; 976000; 978000; 980000; 982000; 984000; 986000; 988000; 990000;
  992000; 994000; 996000; 998000; 1000000; 1000000; 1000000; 1000000; 1000000; 1000000; 1000000; 1000000; 1000000; 1000000; 1000000;
  1000000; 1000000; 1000000; 1000000; 1000000; 1000000; 1000000; 1000000; 1000000; 1000000; 1000000; 1000000; 1000000; 1000000; 1000000;
  1000000; 1000000; 1000000; 1000000; 1000000; 1000000; 1000000; 1000000; 1000000; 1000000; 1000000; 1000000; 1000000; 1000000; 1000000;
  1000000; 1000000; 1000000; 1000000; 1000000; 1000000; 1000000; 1000000; 1000000; 1000000; 1000000; 1000000; 1000000; 1000000; 1000000;
  1000000; 1000000; 1000000; 1000000; 1000000; 1000000; 1000000; 1000000; 1000000; 1000000; 1000000; 1000000; 1000000; 1000000; 1000000;
  1000000; 1000000; 1000000; 1000000; 1000000; 1000000; 1000000; 1000000; 1000000; 1000000; 1000000; 1000000; 1000000; 1000000; 1000000;
  1000000; 1000000; 1000000; 1000000; 1000000; 1000000; 1000000; 1000000];
  [0; 0; 0; 0; 0; 0; 0; 0; 0; 0; 0; 0; 0; 0; 0; 970000; 972000; 974000; 976000; 978000; 980000; 982000; 984000; 986000; 988000; 990000;
  992000; 994000; 996000; 998000; 1000000; 1000000; 1000000; 1000000; 1000000; 1000000; 1000000; 1000000; 1000000; 1000000; 1000000;
  1000000; 1000000; 1000000; 1000000; 1000000; 1000000; 1000000; 1000000; 1000000; 1000000; 1000000; 1000000; 1000000; 1000000; 1000000;
  1000000; 1000000; 1000000; 1000000; 1000000; 1000000; 1000000; 1000000; 1000000; 1000000; 1000000; 1000000; 1000000; 1000000; 1000000;
  1000000; 1000000; 1000000; 1000000; 1000000; 1000000; 1000000; 1000000; 1000000; 1000000; 1000000; 1000000; 1000000; 1000000; 1000000;
  1000000; 1000000; 1000000; 1000000; 1000000; 1000000; 1000000; 1000000; 1000000; 1000000; 1000000; 1000000; 1000000; 1000000; 1000000;
  1000000; 1000000; 1000000; 1000000; 1000000; 1000000; 1000000; 1000000; 1000000; 1000000; 1000000; 1000000; 1000000; 1000000; 1000000;
  1000000; 1000000; 1000000; 1000000; 1000000; 1000000; 1000000; 1000000; 1000000];
  [0; 0; 0; 0; 0; 0; 0; 0; 0; 0; 0; 0; 0; 0; 0; 970000; 972000; 974000; 976000; 978000; 980000; 982000; 984000; 986000; 988000; 990000;
  992000; 994000; 996000; 998000; 1000000; 1000000; 1000000; 1000000; 1000000; 1000000; 1000000; 1000000; 1000000; 1000000; 1000000;
  1000000; 1000000; 1000000; 1000000; 1000000; 1000000; 1000000; 1000000; 1000000; 1000000; 1000000; 1000000; 1000000; 1000000; 1000000;
  1000000; 1000000; 1000000; 1000000; 1000000; 1000000; 1000000; 1000000; 1000000; 1000000; 1000000; 1000000; 1000000; 1000000; 1000000;
  1000000; 1000000; 1000000; 1000000; 1000000; 1000000; 1000000; 1000000; 1000000; 1000000; 1000000; 1000000; 1000000; 1000000; 1000000;
  1000000; 1000000; 1000000; 1000000; 1000000; 1000000; 1000000; 1000000; 1000000; 1000000; 1000000; 1000000; 1000000; 1000000; 1000000;
  1000000; 1000000; 1000000; 1000000; 1000000; 1000000; 1000000; 1000000; 1000000; 1000000; 1000000; 1000000; 1000000; 1000000; 1000000;
  1000000; 1000000; 1000000; 1000000; 1000000; 1000000; 1000000; 1000000; 1000000; 1000000];
  [0; 0; 0; 0; 0; 0; 0; 0; 0; 0; 0; 0; 0; 0; 0; 970000; 972000; 974000; 976000; 978000; 980000; 982000; 984000; 986000; 988000; 990000;
  992000; 994000; 996000; 998000; 1000000; 1000000; 1000000; 1000000; 1000000; 1000000; 1000000; 1000000; 1000000; 1000000; 1000000;
  1000000; 1000000; 1000000; 1000000; 1000000; 1000000; 1000000; 1000000; 1000000; 1000000; 1000000; 1000000; 1000000; 1000000; 1000000;
  1000000; 1000000; 1000000; 1000000; 1000000; 1000000; 1000000; 1000000; 1000000; 1000000; 1000000; 1000000; 1000000; 1000000; 1000000;
  1000000; 1000000; 1000000; 1000000; 1000000; 1000000; 1000000; 1000000; 1000000; 1000000; 1000000; 1000000; 1000000; 1000000; 1000000;
  1000000; 1000000; 1000000; 1000000; 1000000; 1000000; 1000000; 1000000; 1000000; 1000000; 1000000; 1000000; 1000000; 1000000; 1000000;
  1000000; 1000000; 1000000; 1000000; 1000000; 1000000; 1000000; 1000000; 1000000; 1000000; 1000000; 1000000; 1000000; 1000000; 1000000;
  1000000; 1000000; 1000000; 1000000; 1000000; 1000000; 1000000; 1000000; 1000000; 1000000; 1000000];
  [0; 0; 0; 0; 0; 0; 0; 0; 0; 0; 0; 0; 0; 0; 0; 970000; 972000; 974000; 976000; 978000; 980000; 982000; 984000; 986000; 988000; 990000;
  992000; 994000; 996000; 998000; 1000000; 1000000; 1000000; 1000000; 1000000; 1000000; 1000000; 1000000; 1000000; 1000000; 1000000;
  1000000; 1000000; 1000000; 1000000; 1000000; 1000000; 1000000; 1000000; 1000000; 1000000; 1000000; 1000000; 1000000; 1000000; 1000000;
  1000000; 1000000; 1000000; 1000000; 1000000; 1000000; 1000000; 1000000; 1000000; 1000000; 1000000; 1000000; 1000000; 1000000; 1000000;
  1000000; 1000000; 1000000; 1000000; 1000000; 1000000; 1000000; 1000000; 1000000; 1000000; 1000000; 1000000; 1000000; 1000000; 1000000;
  1000000; 1000000; 1000000; 1000000; 1000000; 1000000; 1000000; 1000000; 1000000; 1000000; 1000000; 1000000; 1000000; 1000000; 1000000;
  1000000; 1000000; 1000000; 1000000; 1000000; 1000000; 1000000; 1000000; 1000000; 1000000; 1000000; 1000000; 1000000; 1000000; 1000000;
  1000000; 1000000; 1000000; 1000000; 1000000; 1000000; 1000000; 1000000; 1000000; 1000000; 1000000; 1000000];
  [0; 0; 0; 0; 0; 0; 0; 0; 0; 0; 0; 0; 0; 0; 0; 970000; 972000; 974000; 976000; 978000; 980000; 982000; 984000; 986000; 988000; 990000;
  992000; 994000; 996000; 998000; 1000000; 1000000; 1000000; 1000000; 1000000; 1000000; 1000000; 1000000; 1000000; 1000000; 1000000;
  1000000; 1000000; 1000000; 1000000; 1000000; 1000000; 1000000; 1000000; 1000000; 1000000; 1000000; 1000000; 1000000; 1000000; 1000000;
  1000000; 1000000; 1000000; 1000000; 1000000; 1000000; 1000000; 1000000; 1000000; 1000000; 1000000; 1000000; 1000000; 1000000; 1000000;
  1000000; 1000000; 1000000; 1000000; 1000000; 1000000; 1000000; 1000000; 1000000; 1000000; 1000000; 1000000; 1000000; 1000000; 1000000;
  1000000; 1000000; 1000000; 1000000; 1000000; 1000000; 1000000; 1000000; 1000000; 1000000; 1000000; 1000000; 1000000; 1000000; 1000000;
  1000000; 1000000; 1000000; 1000000; 1000000; 1000000; 1000000; 1000000; 1000000; 1000000; 1000000; 1000000; 1000000; 1000000; 1000000;
  1000000; 1000000; 1000000; 1000000; 1000000; 1000000; 1000000; 1000000; 1000000; 1000000; 1000000; 1000000; 1000000];
  [0; 0; 0; 0; 0; 0; 0; 0; 0; 0; 0; 0; 0; 0; 0; 970000; 972000; 974000; 976000; 978000; 980000; 982000; 984000; 986000; 988000; 990000;
  992000; 994000; 996000; 998000; 1000000; 1000000; 1000000; 1000000; 1000000; 1000000; 1000000; 1000000; 1000000; 1000000; 1000000;
  1000000; 1000000; 1000000; 1000000; 1000000; 1000000; 1000000; 1000000; 1000000; 1000000; 1000000; 1000000; 1000000; 1000000; 1000000;
  1000000; 1000000; 1000000; 1000000; 1000000; 1000000; 1000000; 1000000; 1000000; 1000000; 1000000; 1000000; 1000000; 1000000; 1000000;
  1000000; 1000000; 1000000; 1000000; 1000000; 1000000; 1000000; 1000000; 1000000; 1000000; 1000000; 1000000; 1000000; 1000000; 1000000;
  1000000; 1000000; 1000000; 1000000; 1000000; 1000000; 1000000; 1000000; 1000000; 1000000; 1000000; 1000000; 1000000; 1000000; 1000000;
  1000000; 1000000; 1000000; 1000000; 1000000; 1000000; 1000000; 1000000; 1000000; 1000000; 1000000; 1000000; 1000000; 1000000; 1000000;
  1000000; 1000000; 1000000; 1000000; 1000000; 1000000; 1000000; 1000000; 1000000; 1000000; 1000000; 1000000; 1000000; 1000000];
  [0; 0; 0; 0; 0; 0; 0; 0; 0; 0; 0; 0; 0; 0; 0; 970000; 972000; 974000; 976000; 978000; 980000; 982000; 984000; 986000; 988000; 990000;
  992000; 994000; 996000; 998000; 1000000; 1000000; 1000000; 1000000; 1000000; 1000000; 1000000; 1000000; 1000000; 1000000; 1000000;
  1000000; 1000000; 1000000; 1000000; 1000000; 1000000; 1000000; 1000000; 1000000; 1000000; 1000000; 1000000; 1000000; 1000000; 1000000;
  1000000; 1000000; 1000000; 1000000; 1000000; 1000000; 1000000; 1000000; 1000000; 1000000; 1000000; 1000000; 1000000; 1000000; 1000000;
  1000000; 1000000; 1000000; 1000000; 1000000; 1000000; 1000000; 1000000; 1000000; 1000000; 1000000; 1000000; 1000000; 1000000; 1000000;
  1000000; 1000000; 1000000; 1000000; 1000000; 1000000; 1000000; 1000000; 1000000; 1000000; 1000000; 1000000; 1000000; 1000000; 1000000;
  1000000; 1000000; 1000000; 1000000; 1000000; 1000000; 1000000; 1000000; 1000000; 1000000; 1000000; 1000000; 1000000; 1000000; 1000000;
  1000000; 1000000; 1000000; 1000000; 1000000; 1000000; 1000000; 1000000; 1000000; 1000000; 1000000; 1000000; 1000000; 1000000; 1000000];
  [0; 0; 0; 0; 0; 0; 0; 0; 0; 0; 0; 0; 0; 0; 0; 970000; 972000; 974000; 976000; 978000; 980000; 982000; 984000; 986000; 988000; 990000;
  992000; 994000; 996000; 998000; 1000000; 1000000; 1000000; 1000000; 1000000; 1000000; 1000000; 1000000; 1000000; 1000000; 1000000;
  1000000; 1000000; 1000000; 1000000; 1000000; 1000000; 1000000; 1000000; 1000000; 1000000; 1000000; 1000000; 1000000; 1000000; 1000000;
  1000000; 1000000; 1000000; 1000000; 1000000; 1000000; 1000000; 1000000; 1000000; 1000000; 1000000; 1000000; 1000000; 1000000; 1000000;
  1000000; 1000000; 1000000; 1000000; 1000000; 1000000; 1000000; 1000000; 1000000; 1000000; 1000000; 1000000; 1000000; 1000000; 1000000;
  1000000; 1000000; 1000000; 1000000; 1000000; 1000000; 1000000; 1000000; 1000000; 1000000; 1000000; 1000000; 1000000; 1000000; 1000000;
  1000000; 1000000; 1000000; 1000000; 1000000; 1000000; 1000000; 1000000; 1000000; 1000000; 1000000; 1000000; 1000000; 1000000; 1000000;
  1000000; 1000000; 1000000; 1000000; 1000000; 1000000; 1000000; 1000000; 1000000; 1000000; 1000000; 1000000; 1000000; 1000000; 1000000;
  1000000];
  [0; 0; 0; 0; 0; 0; 0; 0; 0; 0; 0; 0; 0; 0; 0; 970000; 972000; 974000; 976000; 978000; 980000; 982000; 984000; 986000; 988000; 990000;
  992000; 994000; 996000; 998000; 1000000; 1000000; 1000000; 1000000; 1000000; 1000000; 1000000; 1000000; 1000000; 1000000; 1000000;
  1000000; 1000000; 1000000; 1000000; 1000000; 1000000; 1000000; 1000000; 1000000; 1000000; 1000000; 1000000; 1000000; 1000000; 1000000;
  1000000; 1000000; 1000000; 1000000; 1000000; 1000000; 1000000; 1000000; 1000000; 1000000; 1000000; 1000000; 1000000; 1000000; 1000000;
  1000000; 1000000; 1000000; 1000000; 1000000; 1000000; 1000000; 1000000; 1000000; 1000000; 1000000; 1000000; 1000000; 1000000; 1000000;
  1000000; 1000000; 1000000; 1000000; 1000000; 1000000; 1000000; 1000000; 1000000; 1000000; 1000000; 1000000; 1000000; 1000000; 1000000;
  1000000; 1000000; 1000000; 1000000; 1000000; 1000000; 1000000; 1000000; 1000000; 1000000; 1000000; 1000000; 1000000; 1000000; 1000000;
  1000000; 1000000; 1000000; 1000000; 1000000; 1000000; 1000000; 1000000; 1000000; 1000000; 1000000; 1000000; 1000000; 1000000; 1000000;
  1000000; 1000000];
  [0; 0; 0; 0; 0; 0; 0; 0; 0; 0; 0; 0; 0; 0; 0; 970000; 972000; 974000; 976000; 978000; 980000; 982000; 984000; 986000; 988000; 990000;
  992000; 994000; 996000; 998000; 1000000; 1000000; 1000000; 1000000; 1000000; 1000000; 1000000; 1000000; 1000000; 1000000; 1000000;
  1000000; 1000000; 1000000; 1000000; 1000000; 1000000; 1000000; 1000000; 1000000; 1000000; 1000000; 1000000; 1000000; 1000000; 1000000;
  1000000; 1000000; 1000000; 1000000; 1000000; 1000000; 1000000; 1000000; 1000000; 1000000; 1000000; 1000000; 1000000; 1000000; 1000000;
  1000000; 1000000; 1000000; 1000000; 1000000; 1000000; 1000000; 1000000; 1000000; 1000000; 1000000; 1000000; 1000000; 1000000; 1000000;
  1000000; 1000000; 1000000; 1000000; 1000000; 1000000; 1000000; 1000000; 1000000; 1000000; 1000000; 1000000; 1000000; 1000000; 1000000;
  1000000; 1000000; 1000000; 1000000; 1000000; 1000000; 1000000; 1000000; 1000000; 1000000; 1000000; 1000000; 1000000; 1000000; 1000000;
  1000000; 1000000; 1000000; 1000000; 1000000; 1000000; 1000000; 1000000; 1000000; 1000000; 1000000; 1000000; 1000000; 1000000; 1000000;
  1000000; 1000000; 1000000];
  [0; 0; 0; 0; 0; 0; 0; 0; 0; 0; 0; 0; 0; 0; 0; 970000; 972000; 974000; 976000; 978000; 980000; 982000; 984000; 986000; 988000; 990000;
  992000; 994000; 996000; 998000; 1000000; 1000000; 1000000; 1000000; 1000000; 1000000; 1000000; 1000000; 1000000; 1000000; 1000000;
  1000000; 1000000; 1000000; 1000000; 1000000; 1000000; 1000000; 1000000; 1000000; 1000000; 1000000; 1000000; 1000000; 1000000; 1000000;
  1000000; 1000000; 1000000; 1000000; 1000000; 1000000; 1000000; 1000000; 1000000; 1000000; 1000000; 1000000; 1000000; 1000000; 1000000;
  1000000; 1000000; 1000000; 1000000; 1000000; 1000000; 1000000; 1000000; 1000000; 1000000; 1000000; 1000000; 1000000; 1000000; 1000000;
  1000000; 1000000; 1000000; 1000000; 1000000; 1000000; 1000000; 1000000; 1000000; 1000000; 1000000; 1000000; 1000000; 1000000; 1000000;
  1000000; 1000000; 1000000; 1000000; 1000000; 1000000; 1000000; 1000000; 1000000; 1000000; 1000000; 1000000; 1000000; 1000000; 1000000;
  1000000; 1000000; 1000000; 1000000; 1000000; 1000000; 1000000; 1000000; 1000000; 1000000; 1000000; 1000000; 1000000; 1000000; 1000000;
  1000000; 1000000; 1000000; 1000000];
  [0; 0; 0; 0; 0; 0; 0; 0; 0; 0; 0; 0; 0; 0; 0; 970000; 972000; 974000; 976000; 978000; 980000; 982000; 984000; 986000; 988000; 990000;
  992000; 994000; 996000; 998000; 1000000; 1000000; 1000000; 1000000; 1000000; 1000000; 1000000; 1000000; 1000000; 1000000; 1000000;
  1000000; 1000000; 1000000; 1000000; 1000000; 1000000; 1000000; 1000000; 1000000; 1000000; 1000000; 1000000; 1000000; 1000000; 1000000;
  1000000; 1000000; 1000000; 1000000; 1000000; 1000000; 1000000; 1000000; 1000000; 1000000; 1000000; 1000000; 1000000; 1000000; 1000000;
  1000000; 1000000; 1000000; 1000000; 1000000; 1000000; 1000000; 1000000; 1000000; 1000000; 1000000; 1000000; 1000000; 1000000; 1000000;
  1000000; 1000000; 1000000; 1000000; 1000000; 1000000; 1000000; 1000000; 1000000; 1000000; 1000000; 1000000; 1000000; 1000000; 1000000;
  1000000; 1000000; 1000000; 1000000; 1000000; 1000000; 1000000; 1000000; 1000000; 1000000; 1000000; 1000000; 1000000; 1000000; 1000000;
  1000000; 1000000; 1000000; 1000000; 1000000; 1000000; 1000000; 1000000; 1000000; 1000000; 1000000; 1000000; 1000000; 1000000; 1000000;
  1000000; 1000000; 1000000; 1000000; 1000000];
  [0; 0; 0; 0; 0; 0; 0; 0; 0; 0; 0; 0; 0; 0; 0; 970000; 972000; 974000; 976000; 978000; 980000; 982000; 984000; 986000; 988000; 990000;
  992000; 994000; 996000; 998000; 1000000; 1000000; 1000000; 1000000; 1000000; 1000000; 1000000; 1000000; 1000000; 1000000; 1000000;
  1000000; 1000000; 1000000; 1000000; 1000000; 1000000; 1000000; 1000000; 1000000; 1000000; 1000000; 1000000; 1000000; 1000000; 1000000;
  1000000; 1000000; 1000000; 1000000; 1000000; 1000000; 1000000; 1000000; 1000000; 1000000; 1000000; 1000000; 1000000; 1000000; 1000000;
  1000000; 1000000; 1000000; 1000000; 1000000; 1000000; 1000000; 1000000; 1000000; 1000000; 1000000; 1000000; 1000000; 1000000; 1000000;
  1000000; 1000000; 1000000; 1000000; 1000000; 1000000; 1000000; 1000000; 1000000; 1000000; 1000000; 1000000; 1000000; 1000000; 1000000;
  1000000; 1000000; 1000000; 1000000; 1000000; 1000000; 1000000; 1000000; 1000000; 1000000; 1000000; 1000000; 1000000; 1000000; 1000000;
  1000000; 1000000; 1000000; 1000000; 1000000; 1000000; 1000000; 1000000; 1000000; 1000000; 1000000; 1000000; 1000000; 1000000; 1000000;
  1000000; 1000000; 1000000; 1000000; 1000000; 1000000];
  [0; 0; 0; 0; 0; 0; 0; 0; 0; 0; 0; 0; 0; 0; 0; 970000; 972000; 974000; 976000; 978000; 980000; 982000; 984000; 986000; 988000; 990000;
  992000; 994000; 996000; 998000; 1000000; 1000000; 1000000; 1000000; 1000000; 1000000; 1000000; 1000000; 1000000; 1000000; 1000000;
  1000000; 1000000; 1000000; 1000000; 1000000; 1000000; 1000000; 1000000; 1000000; 1000000; 1000000; 1000000; 1000000; 1000000; 1000000;
  1000000; 1000000; 1000000; 1000000; 1000000; 1000000; 1000000; 1000000; 1000000; 1000000; 1000000; 1000000; 1000000; 1000000; 1000000;
  1000000; 1000000; 1000000; 1000000; 1000000; 1000000; 1000000; 1000000; 1000000; 1000000; 1000000; 1000000; 1000000; 1000000; 1000000;
  1000000; 1000000; 1000000; 1000000; 1000000; 1000000; 1000000; 1000000; 1000000; 1000000; 1000000; 1000000; 1000000; 1000000; 1000000;
  1000000; 1000000; 1000000; 1000000; 1000000; 1000000; 1000000; 1000000; 1000000; 1000000; 1000000; 1000000; 1000000; 1000000; 1000000;
  1000000; 1000000; 1000000; 1000000; 1000000; 1000000; 1000000; 1000000; 1000000; 1000000; 1000000; 1000000; 1000000; 1000000; 1000000;
  1000000; 1000000; 1000000; 1000000; 1000000; 1000000; 1000000];
  [0; 0; 0; 0; 0; 0; 0; 0; 0; 0; 0; 0; 0; 0; 0; 970000; 972000; 974000; 976000; 978000; 980000; 982000; 984000; 986000; 988000; 990000;
  992000; 994000; 996000; 998000; 1000000; 1000000; 1000000; 1000000; 1000000; 1000000; 1000000; 1000000; 1000000; 1000000; 1000000;
  1000000; 1000000; 1000000; 1000000; 1000000; 1000000; 1000000; 1000000; 1000000; 1000000; 1000000; 1000000; 1000000; 1000000; 1000000;
  1000000; 1000000; 1000000; 1000000; 1000000; 1000000; 1000000; 1000000; 1000000; 1000000; 1000000; 1000000; 1000000; 1000000; 1000000;
  1000000; 1000000; 1000000; 1000000; 1000000; 1000000; 1000000; 1000000; 1000000; 1000000; 1000000; 1000000; 1000000; 1000000; 1000000;
  1000000; 1000000; 1000000; 1000000; 1000000; 1000000; 1000000; 1000000; 1000000; 1000000; 1000000; 1000000; 1000000; 1000000; 1000000;
  1000000; 1000000; 1000000; 1000000; 1000000; 1000000; 1000000; 1000000; 1000000; 1000000; 1000000; 1000000; 1000000; 1000000; 1000000;
  1000000; 1000000; 1000000; 1000000; 1000000; 1000000; 1000000; 1000000; 1000000; 1000000; 1000000; 1000000; 1000000; 1000000; 1000000;
  1000000; 1000000; 1000000; 1000000; 1000000; 1000000; 1000000; 1000000];
  [0; 0; 0; 0; 0; 0; 0; 0; 0; 0; 0; 0; 0; 0; 0; 970000; 972000; 974000; 976000; 978000; 980000; 982000; 984000; 986000; 988000; 990000;
  992000; 994000; 996000; 998000; 1000000; 1000000; 1000000; 1000000; 1000000; 1000000; 1000000; 1000000; 1000000; 1000000; 1000000;
  1000000; 1000000; 1000000; 1000000; 1000000; 1000000; 1000000; 1000000; 1000000; 1000000; 1000000; 1000000; 1000000; 1000000; 1000000;
  1000000; 1000000; 1000000; 1000000; 1000000; 1000000; 1000000; 1000000; 1000000; 1000000; 1000000; 1000000; 1000000; 1000000; 1000000;
  1000000; 1000000; 1000000; 1000000; 1000000; 1000000; 1000000; 1000000; 1000000; 1000000; 1000000; 1000000; 1000000; 1000000; 1000000;
  1000000; 1000000; 1000000; 1000000; 1000000; 1000000; 1000000; 1000000; 1000000; 1000000; 1000000; 1000000; 1000000; 1000000; 1000000;
  1000000; 1000000; 1000000; 1000000; 1000000; 1000000; 1000000; 1000000; 1000000; 1000000; 1000000; 1000000; 1000000; 1000000; 1000000;
  1000000; 1000000; 1000000; 1000000; 1000000; 1000000; 1000000; 1000000; 1000000; 1000000; 1000000; 1000000; 1000000; 1000000; 1000000;
  1000000; 1000000; 1000000; 1000000; 1000000; 1000000; 1000000; 1000000; 1000000];
  [0; 0; 0; 0; 0; 0; 0; 0; 0; 0; 0; 0; 0; 0; 0; 970000; 972000; 974000; 976000; 978000; 980000; 982000; 984000; 986000; 988000; 990000;
  992000; 994000; 996000; 998000; 1000000; 1000000; 1000000; 1000000; 1000000; 1000000; 1000000; 1000000; 1000000; 1000000; 1000000;
  1000000; 1000000; 1000000; 1000000; 1000000; 1000000; 1000000; 1000000; 1000000; 1000000; 1000000; 1000000; 1000000; 1000000; 1000000;
  1000000; 1000000; 1000000; 1000000; 1000000; 1000000; 1000000; 1000000; 1000000; 1000000; 1000000; 1000000; 1000000; 1000000; 1000000;
  1000000; 1000000; 1000000; 1000000; 1000000; 1000000; 1000000; 1000000; 1000000; 1000000; 1000000; 1000000; 1000000; 1000000; 1000000;
  1000000; 1000000; 1000000; 1000000; 1000000; 1000000; 1000000; 1000000; 1000000; 1000000; 1000000; 1000000; 1000000; 1000000; 1000000;
  1000000; 1000000; 1000000; 1000000; 1000000; 1000000; 1000000; 1000000; 1000000; 1000000; 1000000; 1000000; 1000000; 1000000; 1000000;
  1000000; 1000000; 1000000; 1000000; 1000000; 1000000; 1000000; 1000000; 1000000; 1000000; 1000000; 1000000; 1000000; 1000000; 1000000;
  1000000; 1000000; 1000000; 1000000; 1000000; 1000000; 1000000; 1000000; 1000000; 1000000];
  [0; 0; 0; 0; 0; 0; 0; 0; 0; 0; 0; 0; 0; 0; 0; 970000; 972000; 974000; 976000; 978000; 980000; 982000; 984000; 986000; 988000; 990000;
  992000; 994000; 996000; 998000; 1000000; 1000000; 1000000; 1000000; 1000000; 1000000; 1000000; 1000000; 1000000; 1000000; 1000000;
  1000000; 1000000; 1000000; 1000000; 1000000; 1000000; 1000000; 1000000; 1000000; 1000000; 1000000; 1000000; 1000000; 1000000; 1000000;
  1000000; 1000000; 1000000; 1000000; 1000000; 1000000; 1000000; 1000000; 1000000; 1000000; 1000000; 1000000; 1000000; 1000000; 1000000;
  1000000; 1000000; 1000000; 1000000; 1000000; 1000000; 1000000; 1000000; 1000000; 1000000; 1000000; 1000000; 1000000; 1000000; 1000000;
  1000000; 1000000; 1000000; 1000000; 1000000; 1000000; 1000000; 1000000; 1000000; 1000000; 1000000; 1000000; 1000000; 1000000; 1000000;
  1000000; 1000000; 1000000; 1000000; 1000000; 1000000; 1000000; 1000000; 1000000; 1000000; 1000000; 1000000; 1000000; 1000000; 1000000;
  1000000; 1000000; 1000000; 1000000; 1000000; 1000000; 1000000; 1000000; 1000000; 1000000; 1000000; 1000000; 1000000; 1000000; 1000000;
  1000000; 1000000; 1000000; 1000000; 1000000; 1000000; 1000000; 1000000; 1000000; 1000000; 1000000];
  [0; 0; 0; 0; 0; 0; 0; 0; 0; 0; 0; 0; 0; 0; 0; 970000; 972000; 974000; 976000; 978000; 980000; 982000; 984000; 986000; 988000; 990000;
  992000; 994000; 996000; 998000; 1000000; 1000000; 1000000; 1000000; 1000000; 1000000; 1000000; 1000000; 1000000; 1000000; 1000000;
  1000000; 1000000; 1000000; 1000000; 1000000; 1000000; 1000000; 1000000; 1000000; 1000000; 1000000; 1000000; 1000000; 1000000; 1000000;
  1000000; 1000000; 1000000; 1000000; 1000000; 1000000; 1000000; 1000000; 1000000; 1000000; 1000000; 1000000; 1000000; 1000000; 1000000;
  1000000; 1000000; 1000000; 1000000; 1000000; 1000000; 1000000; 1000000; 1000000; 1000000; 1000000; 1000000; 1000000; 1000000; 1000000;
  1000000; 1000000; 1000000; 1000000; 1000000; 1000000; 1000000; 1000000; 1000000; 1000000; 1000000; 1000000; 1000000; 1000000; 1000000;
  1000000; 1000000; 1000000; 1000000; 1000000; 1000000; 1000000; 1000000; 1000000; 1000000; 1000000; 1000000; 1000000; 1000000; 1000000;
  1000000; 1000000; 1000000; 1000000; 1000000; 1000000; 1000000; 1000000; 1000000; 1000000; 1000000; 1000000; 1000000; 1000000; 1000000;
  1000000; 1000000; 1000000; 1000000; 1000000; 1000000; 1000000; 1000000; 1000000; 1000000; 1000000; 1000000];
  [0; 0; 0; 0; 0; 0; 0; 0; 0; 0; 0; 0; 0; 0; 0; 970000; 972000; 974000; 976000; 978000; 980000; 982000; 984000; 986000; 988000; 990000;
  992000; 994000; 996000; 998000; 1000000; 1000000; 1000000; 1000000; 1000000; 1000000; 1000000; 1000000; 1000000; 1000000; 1000000;
  1000000; 1000000; 1000000; 1000000; 1000000; 1000000; 1000000; 1000000; 1000000; 1000000; 1000000; 1000000; 1000000; 1000000; 1000000;
  1000000; 1000000; 1000000; 1000000; 1000000; 1000000; 1000000; 1000000; 1000000; 1000000; 1000000; 1000000; 1000000; 1000000; 1000000;
  1000000; 1000000; 1000000; 1000000; 1000000; 1000000; 1000000; 1000000; 1000000; 1000000; 1000000; 1000000; 1000000; 1000000; 1000000;
  1000000; 1000000; 1000000; 1000000; 1000000; 1000000; 1000000; 1000000; 1000000; 1000000; 1000000; 1000000; 1000000; 1000000; 1000000;
  1000000; 1000000; 1000000; 1000000; 1000000; 1000000; 1000000; 1000000; 1000000; 1000000; 1000000; 1000000; 1000000; 1000000; 1000000;
  1000000; 1000000; 1000000; 1000000; 1000000; 1000000; 1000000; 1000000; 1000000; 1000000; 1000000; 1000000; 1000000; 1000000; 1000000;
  1000000; 1000000; 1000000; 1000000; 1000000; 1000000; 1000000; 1000000; 1000000; 1000000; 1000000; 1000000; 1000000];
  [0; 0; 0; 0; 0; 0; 0; 0; 0; 0; 0; 0; 0; 0; 0; 970000; 972000; 974000; 976000; 978000; 980000; 982000; 984000; 986000; 988000; 990000;
  992000; 994000; 996000; 998000; 1000000; 1000000; 1000000; 1000000; 1000000; 1000000; 1000000; 1000000; 1000000; 1000000; 1000000;
  1000000; 1000000; 1000000; 1000000; 1000000; 1000000; 1000000; 1000000; 1000000; 1000000; 1000000; 1000000; 1000000; 1000000; 1000000;
  1000000; 1000000; 1000000; 1000000; 1000000; 1000000; 1000000; 1000000; 1000000; 1000000; 1000000; 1000000; 1000000; 1000000; 1000000;
  1000000; 1000000; 1000000; 1000000; 1000000; 1000000; 1000000; 1000000; 1000000; 1000000; 1000000; 1000000; 1000000; 1000000; 1000000;
  1000000; 1000000; 1000000; 1000000; 1000000; 1000000; 1000000; 1000000; 1000000; 1000000; 1000000; 1000000; 1000000; 1000000; 1000000;
  1000000; 1000000; 1000000; 1000000; 1000000; 1000000; 1000000; 1000000; 1000000; 1000000; 1000000; 1000000; 1000000; 1000000; 1000000;
  1000000; 1000000; 1000000; 1000000; 1000000; 1000000; 1000000; 1000000; 1000000; 1000000; 1000000; 1000000; 1000000; 1000000; 1000000;
  1000000; 1000000; 1000000; 1000000; 1000000; 1000000; 1000000; 1000000; 1000000; 1000000; 1000000; 1000000; 1000000; 1000000];
  [0; 0; 0; 0; 0; 0; 0; 0; 0; 0; 0; 0; 0; 0; 0; 970000; 972000; 974000; 976000; 978000; 980000; 982000; 984000; 986000; 988000; 990000;
  992000; 994000; 996000; 998000; 1000000; 1000000; 1000000; 1000000; 1000000; 1000000; 1000000; 1000000; 1000000; 1000000; 1000000;
  1000000; 1000000; 1000000; 1000000; 1000000; 1000000; 1000000; 1000000; 1000000; 1000000; 1000000; 1000000; 1000000; 1000000; 1000000;
  1000000; 1000000; 1000000; 1000000; 1000000; 1000000; 1000000; 1000000; 1000000; 1000000; 1000000; 1000000; 1000000; 1000000; 1000000;
  1000000; 1000000; 1000000; 1000000; 1000000; 1000000; 1000000; 1000000; 1000000; 1000000; 1000000; 1000000; 1000000; 1000000; 1000000;
  1000000; 1000000; 1000000; 1000000; 1000000; 1000000; 1000000; 1000000; 1000000; 1000000; 1000000; 1000000; 1000000; 1000000; 1000000;
  1000000; 1000000; 1000000; 1000000; 1000000; 1000000; 1000000; 1000000; 1000000; 1000000; 1000000; 1000000; 1000000; 1000000; 1000000;
  1000000; 1000000; 1000000; 1000000; 1000000; 1000000; 1000000; 1000000; 1000000; 1000000; 1000000; 1000000; 1000000; 1000000; 1000000;
  1000000; 1000000; 1000000; 1000000; 1000000; 1000000; 1000000; 1000000; 1000000; 1000000; 1000000; 1000000; 1000000; 1000000; 1000000];
  [0; 0; 0; 0; 0; 0; 0; 0; 0; 0; 0; 0; 0; 0; 0; 970000; 972000; 974000; 976000; 978000; 980000; 982000; 984000; 986000; 988000; 990000;
  992000; 994000; 996000; 998000; 1000000; 1000000; 1000000; 1000000; 1000000; 1000000; 1000000; 1000000; 1000000; 1000000; 1000000;
  1000000; 1000000; 1000000; 1000000; 1000000; 1000000; 1000000; 1000000; 1000000; 1000000; 1000000; 1000000; 1000000; 1000000; 1000000;
  1000000; 1000000; 1000000; 1000000; 1000000; 1000000; 1000000; 1000000; 1000000; 1000000; 1000000; 1000000; 1000000; 1000000; 1000000;
  1000000; 1000000; 1000000; 1000000; 1000000; 1000000; 1000000; 1000000; 1000000; 1000000; 1000000; 1000000; 1000000; 1000000; 1000000;
  1000000; 1000000; 1000000; 1000000; 1000000; 1000000; 1000000; 1000000; 1000000; 1000000; 1000000; 1000000; 1000000; 1000000; 1000000;
  1000000; 1000000; 1000000; 1000000; 1000000; 1000000; 1000000; 1000000; 1000000; 1000000; 1000000; 1000000; 1000000; 1000000; 1000000;
  1000000; 1000000; 1000000; 1000000; 1000000; 1000000; 1000000; 1000000; 1000000; 1000000; 1000000; 1000000; 1000000; 1000000; 1000000;
  1000000; 1000000; 1000000; 1000000; 1000000; 1000000; 1000000; 1000000; 1000000; 1000000; 1000000; 1000000; 1000000; 1000000; 1000000;
  1000000];
  [0; 0; 0; 0; 0; 0; 0; 0; 0; 0; 0; 0; 0; 0; 0; 970000; 972000; 974000; 976000; 978000; 980000; 982000; 984000; 986000; 988000; 990000;
  992000; 994000; 996000; 998000; 1000000; 1000000; 1000000; 1000000; 1000000; 1000000; 1000000; 1000000; 1000000; 1000000; 1000000;
  1000000; 1000000; 1000000; 1000000; 1000000; 1000000; 1000000; 1000000; 1000000; 1000000; 1000000; 1000000; 1000000; 1000000; 1000000;
  1000000; 1000000; 1000000; 1000000; 1000000; 1000000; 1000000; 1000000; 1000000; 1000000; 1000000; 1000000; 1000000; 1000000; 1000000;
  1000000; 1000000; 1000000; 1000000; 1000000; 1000000; 1000000; 1000000; 1000000; 1000000; 1000000; 1000000; 1000000; 1000000; 1000000;
  1000000; 1000000; 1000000; 1000000; 1000000; 1000000; 1000000; 1000000; 1000000; 1000000; 1000000; 1000000; 1000000; 1000000; 1000000;
  1000000; 1000000; 1000000; 1000000; 1000000; 1000000; 1000000; 1000000; 1000000; 1000000; 1000000; 1000000; 1000000; 1000000; 1000000;
  1000000; 1000000; 1000000; 1000000; 1000000; 1000000; 1000000; 1000000; 1000000; 1000000; 1000000; 1000000; 1000000; 1000000; 1000000;
  1000000; 1000000; 1000000; 1000000; 1000000; 1000000; 1000000; 1000000; 1000000; 1000000; 1000000; 1000000; 1000000; 1000000; 1000000;
  1000000; 1000000];
  [0; 0; 0; 0; 0; 0; 0; 0; 0; 0; 0; 0; 0; 0; 0; 970000; 972000; 974000; 976000; 978000; 980000; 982000; 984000; 986000; 988000; 990000;
  992000; 994000; 996000; 998000; 1000000; 1000000; 1000000; 1000000; 1000000; 1000000; 1000000; 1000000; 1000000; 1000000; 1000000;
  1000000; 1000000; 1000000; 1000000; 1000000; 1000000; 1000000; 1000000; 1000000; 1000000; 1000000; 1000000; 1000000; 1000000; 1000000;
  1000000; 1000000; 1000000; 1000000; 1000000; 1000000; 1000000; 1000000; 1000000; 1000000; 1000000; 1000000; 1000000; 1000000; 1000000;
  1000000; 1000000; 1000000; 1000000; 1000000; 1000000; 1000000; 1000000; 1000000; 1000000; 1000000; 1000000; 1000000; 1000000; 1000000;
  1000000; 1000000; 1000000; 1000000; 1000000; 1000000; 1000000; 1000000; 1000000; 1000000; 1000000; 1000000; 1000000; 1000000; 1000000;
  1000000; 1000000; 1000000; 1000000; 1000000; 1000000; 1000000; 1000000; 1000000; 1000000; 1000000; 1000000; 1000000; 1000000; 1000000;
  1000000; 1000000; 1000000; 1000000; 1000000; 1000000; 1000000; 1000000; 1000000; 1000000; 1000000; 1000000; 1000000; 1000000; 1000000;
  1000000; 1000000; 1000000; 1000000; 1000000; 1000000; 1000000; 1000000; 1000000; 1000000; 1000000; 1000000; 1000000; 1000000; 1000000;
  1000000; 1000000; 1000000];
  [0; 0; 0; 0; 0; 0; 0; 0; 0; 0; 0; 0; 0; 0; 0; 970000; 972000; 974000; 976000; 978000; 980000; 982000; 984000; 986000; 988000; 990000;
  992000; 994000; 996000; 998000; 1000000; 1000000; 1000000; 1000000; 1000000; 1000000; 1000000; 1000000; 1000000; 1000000; 1000000;
  1000000; 1000000; 1000000; 1000000; 1000000; 1000000; 1000000; 1000000; 1000000; 1000000; 1000000; 1000000; 1000000; 1000000; 1000000;
  1000000; 1000000; 1000000; 1000000; 1000000; 1000000; 1000000; 1000000; 1000000; 1000000; 1000000; 1000000; 1000000; 1000000; 1000000;
  1000000; 1000000; 1000000; 1000000; 1000000; 1000000; 1000000; 1000000; 1000000; 1000000; 1000000; 1000000; 1000000; 1000000; 1000000;
  1000000; 1000000; 1000000; 1000000; 1000000; 1000000; 1000000; 1000000; 1000000; 1000000; 1000000; 1000000; 1000000; 1000000; 1000000;
  1000000; 1000000; 1000000; 1000000; 1000000; 1000000; 1000000; 1000000; 1000000; 1000000; 1000000; 1000000; 1000000; 1000000; 1000000;
  1000000; 1000000; 1000000; 1000000; 1000000; 1000000; 1000000; 1000000; 1000000; 1000000; 1000000; 1000000; 1000000; 1000000; 1000000;
  1000000; 1000000; 1000000; 1000000; 1000000; 1000000; 1000000; 1000000; 1000000; 1000000; 1000000; 1000000; 1000000; 1000000; 1000000;
  1000000; 1000000; 1000000; 1000000];
  [0; 0; 0; 0; 0; 0; 0; 0; 0; 0; 0; 0; 0; 0; 0; 970000; 972000; 974000; 976000; 978000; 980000; 982000; 984000; 986000; 988000; 990000;
  992000; 994000; 996000; 998000; 1000000; 1000000; 1000000; 1000000; 1000000; 1000000; 1000000; 1000000; 1000000; 1000000; 1000000;
  1000000; 1000000; 1000000; 1000000; 1000000; 1000000; 1000000; 1000000; 1000000; 1000000; 1000000; 1000000; 1000000; 1000000; 1000000;
  1000000; 1000000; 1000000; 1000000; 1000000; 1000000; 1000000; 1000000; 1000000; 1000000; 1000000; 1000000; 1000000; 1000000; 1000000;
  1000000; 1000000; 1000000; 1000000; 1000000; 1000000; 1000000; 1000000; 1000000; 1000000; 1000000; 1000000; 1000000; 1000000; 1000000;
  1000000; 1000000; 1000000; 1000000; 1000000; 1000000; 1000000; 1000000; 1000000; 1000000; 1000000; 1000000; 1000000; 1000000; 1000000;
  1000000; 1000000; 1000000; 1000000; 1000000; 1000000; 1000000; 1000000; 1000000; 1000000; 1000000; 1000000; 1000000; 1000000; 1000000;
  1000000; 1000000; 1000000; 1000000; 1000000; 1000000; 1000000; 1000000; 1000000; 1000000; 1000000; 1000000; 1000000; 1000000; 1000000;
  1000000; 1000000; 1000000; 1000000; 1000000; 1000000; 1000000; 1000000; 1000000; 1000000; 1000000; 1000000; 1000000; 1000000; 1000000;
  1000000; 1000000; 1000000; 1000000; 1000000];
  [0; 0; 0; 0; 0; 0; 0; 0; 0; 0; 0; 0; 0; 0; 0; 970000; 972000; 974000; 976000; 978000; 980000; 982000; 984000; 986000; 988000; 990000;
  992000; 994000; 996000; 998000; 1000000; 1000000; 1000000; 1000000; 1000000; 1000000; 1000000; 1000000; 1000000; 1000000; 1000000;
  1000000; 1000000; 1000000; 1000000; 1000000; 1000000; 1000000; 1000000; 1000000; 1000000; 1000000; 1000000; 1000000; 1000000; 1000000;
  1000000; 1000000; 1000000; 1000000; 1000000; 1000000; 1000000; 1000000; 1000000; 1000000; 1000000; 1000000; 1000000; 1000000; 1000000;
  1000000; 1000000; 1000000; 1000000; 1000000; 1000000; 1000000; 1000000; 1000000; 1000000; 1000000; 1000000; 1000000; 1000000; 1000000;
  1000000; 1000000; 1000000; 1000000; 1000000; 1000000; 1000000; 1000000; 1000000; 1000000; 1000000; 1000000; 1000000; 1000000; 1000000;
  1000000; 1000000; 1000000; 1000000; 1000000; 1000000; 1000000; 1000000; 1000000; 1000000; 1000000; 1000000; 1000000; 1000000; 1000000;
  1000000; 1000000; 1000000; 1000000; 1000000; 1000000; 1000000; 1000000; 1000000; 1000000; 1000000; 1000000; 1000000; 1000000; 1000000;
  1000000; 1000000; 1000000; 1000000; 1000000; 1000000; 1000000; 1000000; 1000000; 1000000; 1000000; 1000000; 1000000; 1000000; 1000000;
  1000000; 1000000; 1000000; 1000000; 1000000; 1000000];
  [0; 0; 0; 0; 0; 0; 0; 0; 0; 0; 0; 0; 0; 0; 0; 970000; 972000; 974000; 976000; 978000; 980000; 982000; 984000; 986000; 988000; 990000;
  992000; 994000; 996000; 998000; 1000000; 1000000; 1000000; 1000000; 1000000; 1000000; 1000000; 1000000; 1000000; 1000000; 1000000;
  1000000; 1000000; 1000000; 1000000; 1000000; 1000000; 1000000; 1000000; 1000000; 1000000; 1000000; 1000000; 1000000; 1000000; 1000000;
  1000000; 1000000; 1000000; 1000000; 1000000; 1000000; 1000000; 1000000; 1000000; 1000000; 1000000; 1000000; 1000000; 1000000; 1000000;
  1000000; 1000000; 1000000; 1000000; 1000000; 1000000; 1000000; 1000000; 1000000; 1000000; 1000000; 1000000; 1000000; 1000000; 1000000;
  1000000; 1000000; 1000000; 1000000; 1000000; 1000000; 1000000; 1000000; 1000000; 1000000; 1000000; 1000000; 1000000; 1000000; 1000000;
  1000000; 1000000; 1000000; 1000000; 1000000; 1000000; 1000000; 1000000; 1000000; 1000000; 1000000; 1000000; 1000000; 1000000; 1000000;
  1000000; 1000000; 1000000; 1000000; 1000000; 1000000; 1000000; 1000000; 1000000; 1000000; 1000000; 1000000; 1000000; 1000000; 1000000;
  1000000; 1000000; 1000000; 1000000; 1000000; 1000000; 1000000; 1000000; 1000000; 1000000; 1000000; 1000000; 1000000; 1000000; 1000000;
  1000000; 1000000; 1000000; 1000000; 1000000; 1000000; 1000000];
  [0; 0; 0; 0; 0; 0; 0; 0; 0; 0; 0; 0; 0; 0; 0; 970000; 972000; 974000; 976000; 978000; 980000; 982000; 984000; 986000; 988000; 990000;
  992000; 994000; 996000; 998000; 1000000; 1000000; 1000000; 1000000; 1000000; 1000000; 1000000; 1000000; 1000000; 1000000; 1000000;
  1000000; 1000000; 1000000; 1000000; 1000000; 1000000; 1000000; 1000000; 1000000; 1000000; 1000000; 1000000; 1000000; 1000000; 1000000;
  1000000; 1000000; 1000000; 1000000; 1000000; 1000000; 1000000; 1000000; 1000000; 1000000; 1000000; 1000000; 1000000; 1000000; 1000000;
  1000000; 1000000; 1000000; 1000000; 1000000; 1000000; 1000000; 1000000; 1000000; 1000000; 1000000; 1000000; 1000000; 1000000; 1000000;
  1000000; 1000000; 1000000; 1000000; 1000000; 1000000; 1000000; 1000000; 1000000; 1000000; 1000000; 1000000; 1000000; 1000000; 1000000;
  1000000; 1000000; 1000000; 1000000; 1000000; 1000000; 1000000; 1000000; 1000000; 1000000; 1000000; 1000000; 1000000; 1000000; 1000000;
  1000000; 1000000; 1000000; 1000000; 1000000; 1000000; 1000000; 1000000; 1000000; 1000000; 1000000; 1000000; 1000000; 1000000; 1000000;
  1000000; 1000000; 1000000; 1000000; 1000000; 1000000; 1000000; 1000000; 1000000; 1000000; 1000000; 1000000; 1000000; 1000000; 1000000;
  1000000; 1000000; 1000000; 1000000; 1000000; 1000000; 1000000; 1000000];
  [0; 0; 0; 0; 0; 0; 0; 0; 0; 0; 0; 0; 0; 0; 0; 970000; 972000; 974000; 976000; 978000; 980000; 982000; 984000; 986000; 988000; 990000;
  992000; 994000; 996000; 998000; 1000000; 1000000; 1000000; 1000000; 1000000; 1000000; 1000000; 1000000; 1000000; 1000000; 1000000;
  1000000; 1000000; 1000000; 1000000; 1000000; 1000000; 1000000; 1000000; 1000000; 1000000; 1000000; 1000000; 1000000; 1000000; 1000000;
  1000000; 1000000; 1000000; 1000000; 1000000; 1000000; 1000000; 1000000; 1000000; 1000000; 1000000; 1000000; 1000000; 1000000; 1000000;
  1000000; 1000000; 1000000; 1000000; 1000000; 1000000; 1000000; 1000000; 1000000; 1000000; 1000000; 1000000; 1000000; 1000000; 1000000;
  1000000; 1000000; 1000000; 1000000; 1000000; 1000000; 1000000; 1000000; 1000000; 1000000; 1000000; 1000000; 1000000; 1000000; 1000000;
  1000000; 1000000; 1000000; 1000000; 1000000; 1000000; 1000000; 1000000; 1000000; 1000000; 1000000; 1000000; 1000000; 1000000; 1000000;
  1000000; 1000000; 1000000; 1000000; 1000000; 1000000; 1000000; 1000000; 1000000; 1000000; 1000000; 1000000; 1000000; 1000000; 1000000;
  1000000; 1000000; 1000000; 1000000; 1000000; 1000000; 1000000; 1000000; 1000000; 1000000; 1000000; 1000000; 1000000; 1000000; 1000000;
  1000000; 1000000; 1000000; 1000000; 1000000; 1000000; 1000000; 1000000; 1000000];
  [0; 0; 0; 0; 0; 0; 0; 0; 0; 0; 0; 0; 0; 0; 0; 970000; 972000; 974000; 976000; 978000; 980000; 982000; 984000; 986000; 988000; 990000;
  992000; 994000; 996000; 998000; 1000000; 1000000; 1000000; 1000000; 1000000; 1000000; 1000000; 1000000; 1000000; 1000000; 1000000;
  1000000; 1000000; 1000000; 1000000; 1000000; 1000000; 1000000; 1000000; 1000000; 1000000; 1000000; 1000000; 1000000; 1000000; 1000000;
  1000000; 1000000; 1000000; 1000000; 1000000; 1000000; 1000000; 1000000; 1000000; 1000000; 1000000; 1000000; 1000000; 1000000; 1000000;
  1000000; 1000000; 1000000; 1000000; 1000000; 1000000; 1000000; 1000000; 1000000; 1000000; 1000000; 1000000; 1000000; 1000000; 1000000;
  1000000; 1000000; 1000000; 1000000; 1000000; 1000000; 1000000; 1000000; 1000000; 1000000; 1000000; 1000000; 1000000; 1000000; 1000000;
  1000000; 1000000; 1000000; 1000000; 1000000; 1000000; 1000000; 1000000; 1000000; 1000000; 1000000; 1000000; 1000000; 1000000; 1000000;
  1000000; 1000000; 1000000; 1000000; 1000000; 1000000; 1000000; 1000000; 1000000; 1000000; 1000000; 1000000; 1000000; 1000000; 1000000;
  1000000; 1000000; 1000000; 1000000; 1000000; 1000000; 1000000; 1000000; 1000000; 1000000; 1000000; 1000000; 1000000; 1000000; 1000000;
  1000000; 1000000; 1000000; 1000000; 1000000; 1000000; 1000000; 1000000; 1000000; 1000000];
  [0; 0; 0; 0; 0; 0; 0; 0; 0; 0; 0; 0; 0; 0; 0; 970000; 972000; 974000; 976000; 978000; 980000; 982000; 984000; 986000; 988000; 990000;
  992000; 994000; 996000; 998000; 1000000; 1000000; 1000000; 1000000; 1000000; 1000000; 1000000; 1000000; 1000000; 1000000; 1000000;
  1000000; 1000000; 1000000; 1000000; 1000000; 1000000; 1000000; 1000000; 1000000; 1000000; 1000000; 1000000; 1000000; 1000000; 1000000;
  1000000; 1000000; 1000000; 1000000; 1000000; 1000000; 1000000; 1000000; 1000000; 1000000; 1000000; 1000000; 1000000; 1000000; 1000000;
  1000000; 1000000; 1000000; 1000000; 1000000; 1000000; 1000000; 1000000; 1000000; 1000000; 1000000; 1000000; 1000000; 1000000; 1000000;
  1000000; 1000000; 1000000; 1000000; 1000000; 1000000; 1000000; 1000000; 1000000; 1000000; 1000000; 1000000; 1000000; 1000000; 1000000;
  1000000; 1000000; 1000000; 1000000; 1000000; 1000000; 1000000; 1000000; 1000000; 1000000; 1000000; 1000000; 1000000; 1000000; 1000000;
  1000000; 1000000; 1000000; 1000000; 1000000; 1000000; 1000000; 1000000; 1000000; 1000000; 1000000; 1000000; 1000000; 1000000; 1000000;
  1000000; 1000000; 1000000; 1000000; 1000000; 1000000; 1000000; 1000000; 1000000; 1000000; 1000000; 1000000; 1000000; 1000000; 1000000;
  1000000; 1000000; 1000000; 1000000; 1000000; 1000000; 1000000; 1000000; 1000000; 1000000; 1000000];
  [0; 0; 0; 0; 0; 0; 0; 0; 0; 0; 0; 0; 0; 0; 0; 970000; 972000; 974000; 976000; 978000; 980000; 982000; 984000; 986000; 988000; 990000;
  992000; 994000; 996000; 998000; 1000000; 1000000; 1000000; 1000000; 1000000; 1000000; 1000000; 1000000; 1000000; 1000000; 1000000;
  1000000; 1000000; 1000000; 1000000; 1000000; 1000000; 1000000; 1000000; 1000000; 1000000; 1000000; 1000000; 1000000; 1000000; 1000000;
  1000000; 1000000; 1000000; 1000000; 1000000; 1000000; 1000000; 1000000; 1000000; 1000000; 1000000; 1000000; 1000000; 1000000; 1000000;
  1000000; 1000000; 1000000; 1000000; 1000000; 1000000; 1000000; 1000000; 1000000; 1000000; 1000000; 1000000; 1000000; 1000000; 1000000;
  1000000; 1000000; 1000000; 1000000; 1000000; 1000000; 1000000; 1000000; 1000000; 1000000; 1000000; 1000000; 1000000; 1000000; 1000000;
  1000000; 1000000; 1000000; 1000000; 1000000; 1000000; 1000000; 1000000; 1000000; 1000000; 1000000; 1000000; 1000000; 1000000; 1000000;
  1000000; 1000000; 1000000; 1000000; 1000000; 1000000; 1000000; 1000000; 1000000; 1000000; 1000000; 1000000; 1000000; 1000000; 1000000;
  1000000; 1000000; 1000000; 1000000; 1000000; 1000000; 1000000; 1000000; 1000000; 1000000; 1000000; 1000000; 1000000; 1000000; 1000000;
  1000000; 1000000; 1000000; 1000000; 1000000; 1000000; 1000000; 1000000; 1000000; 1000000; 1000000; 1000000];
  [0; 0; 0; 0; 0; 0; 0; 0; 0; 0; 0; 0; 0; 0; 0; 970000; 972000; 974000; 976000; 978000; 980000; 982000; 984000; 986000; 988000; 990000;
  992000; 994000; 996000; 998000; 1000000; 1000000; 1000000; 1000000; 1000000; 1000000; 1000000; 1000000; 1000000; 1000000; 1000000;
  1000000; 1000000; 1000000; 1000000; 1000000; 1000000; 1000000; 1000000; 1000000; 1000000; 1000000; 1000000; 1000000; 1000000; 1000000;
  1000000; 1000000; 1000000; 1000000; 1000000; 1000000; 1000000; 1000000; 1000000; 1000000; 1000000; 1000000; 1000000; 1000000; 1000000;
  1000000; 1000000; 1000000; 1000000; 1000000; 1000000; 1000000; 1000000; 1000000; 1000000; 1000000; 1000000; 1000000; 1000000; 1000000;
  1000000; 1000000; 1000000; 1000000; 1000000; 1000000; 1000000; 1000000; 1000000; 1000000; 1000000; 1000000; 1000000; 1000000; 1000000;
  1000000; 1000000; 1000000; 1000000; 1000000; 1000000; 1000000; 1000000; 1000000; 1000000; 1000000; 1000000; 1000000; 1000000; 1000000;
  1000000; 1000000; 1000000; 1000000; 1000000; 1000000; 1000000; 1000000; 1000000; 1000000; 1000000; 1000000; 1000000; 1000000; 1000000;
  1000000; 1000000; 1000000; 1000000; 1000000; 1000000; 1000000; 1000000; 1000000; 1000000; 1000000; 1000000; 1000000; 1000000; 1000000;
  1000000; 1000000; 1000000; 1000000; 1000000; 1000000; 1000000; 1000000; 1000000; 1000000; 1000000; 1000000; 1000000];
  [0; 0; 0; 0; 0; 0; 0; 0; 0; 0; 0; 0; 0; 0; 0; 970000; 972000; 974000; 976000; 978000; 980000; 982000; 984000; 986000; 988000; 990000;
  992000; 994000; 996000; 998000; 1000000; 1000000; 1000000; 1000000; 1000000; 1000000; 1000000; 1000000; 1000000; 1000000; 1000000;
  1000000; 1000000; 1000000; 1000000; 1000000; 1000000; 1000000; 1000000; 1000000; 1000000; 1000000; 1000000; 1000000; 1000000; 1000000;
  1000000; 1000000; 1000000; 1000000; 1000000; 1000000; 1000000; 1000000; 1000000; 1000000; 1000000; 1000000; 1000000; 1000000; 1000000;
  1000000; 1000000; 1000000; 1000000; 1000000; 1000000; 1000000; 1000000; 1000000; 1000000; 1000000; 1000000; 1000000; 1000000; 1000000;
  1000000; 1000000; 1000000; 1000000; 1000000; 1000000; 1000000; 1000000; 1000000; 1000000; 1000000; 1000000; 1000000; 1000000; 1000000;
  1000000; 1000000; 1000000; 1000000; 1000000; 1000000; 1000000; 1000000; 1000000; 1000000; 1000000; 1000000; 1000000; 1000000; 1000000;
  1000000; 1000000; 1000000; 1000000; 1000000; 1000000; 1000000; 1000000; 1000000; 1000000; 1000000; 1000000; 1000000; 1000000; 1000000;
  1000000; 1000000; 1000000; 1000000; 1000000; 1000000; 1000000; 1000000; 1000000; 1000000; 1000000; 1000000; 1000000; 1000000; 1000000;
  1000000; 1000000; 1000000; 1000000; 1000000; 1000000; 1000000; 1000000; 1000000; 1000000; 1000000; 1000000; 1000000; 1000000];
  [0; 0; 0; 0; 0; 0; 0; 0; 0; 0; 0; 0; 0; 0; 0; 970000; 972000; 974000; 976000; 978000; 980000; 982000; 984000; 986000; 988000; 990000;
  992000; 994000; 996000; 998000; 1000000; 1000000; 1000000; 1000000; 1000000; 1000000; 1000000; 1000000; 1000000; 1000000; 1000000;
  1000000; 1000000; 1000000; 1000000; 1000000; 1000000; 1000000; 1000000; 1000000; 1000000; 1000000; 1000000; 1000000; 1000000; 1000000;
  1000000; 1000000; 1000000; 1000000; 1000000; 1000000; 1000000; 1000000; 1000000; 1000000; 1000000; 1000000; 1000000; 1000000; 1000000;
  1000000; 1000000; 1000000; 1000000; 1000000; 1000000; 1000000; 1000000; 1000000; 1000000; 1000000; 1000000; 1000000; 1000000; 1000000;
  1000000; 1000000; 1000000; 1000000; 1000000; 1000000; 1000000; 1000000; 1000000; 1000000; 1000000; 1000000; 1000000; 1000000; 1000000;
  1000000; 1000000; 1000000; 1000000; 1000000; 1000000; 1000000; 1000000; 1000000; 1000000; 1000000; 1000000; 1000000; 1000000; 1000000;
  1000000; 1000000; 1000000; 1000000; 1000000; 1000000; 1000000; 1000000; 1000000; 1000000; 1000000; 1000000; 1000000; 1000000; 1000000;
  1000000; 1000000; 1000000; 1000000; 1000000; 1000000; 1000000; 1000000; 1000000; 1000000; 1000000; 1000000; 1000000; 1000000; 1000000;
  1000000; 1000000; 1000000; 1000000; 1000000; 1000000; 1000000; 1000000; 1000000; 1000000; 1000000; 1000000; 1000000; 1000000; 1000000];
  [0; 0; 0; 0; 0; 0; 0; 0; 0; 0; 0; 0; 0; 0; 0; 970000; 972000; 974000; 976000; 978000; 980000; 982000; 984000; 986000; 988000; 990000;
  992000; 994000; 996000; 998000; 1000000; 1000000; 1000000; 1000000; 1000000; 1000000; 1000000; 1000000; 1000000; 1000000; 1000000;
  1000000; 1000000; 1000000; 1000000; 1000000; 1000000; 1000000; 1000000; 1000000; 1000000; 1000000; 1000000; 1000000; 1000000; 1000000;
  1000000; 1000000; 1000000; 1000000; 1000000; 1000000; 1000000; 1000000; 1000000; 1000000; 1000000; 1000000; 1000000; 1000000; 1000000;
  1000000; 1000000; 1000000; 1000000; 1000000; 1000000; 1000000; 1000000; 1000000; 1000000; 1000000; 1000000; 1000000; 1000000; 1000000;
  1000000; 1000000; 1000000; 1000000; 1000000; 1000000; 1000000; 1000000; 1000000; 1000000; 1000000; 1000000; 1000000; 1000000; 1000000;
  1000000; 1000000; 1000000; 1000000; 1000000; 1000000; 1000000; 1000000; 1000000; 1000000; 1000000; 1000000; 1000000; 1000000; 1000000;
  1000000; 1000000; 1000000; 1000000; 1000000; 1000000; 1000000; 1000000; 1000000; 1000000; 1000000; 1000000; 1000000; 1000000; 1000000;
  1000000; 1000000; 1000000; 1000000; 1000000; 1000000; 1000000; 1000000; 1000000; 1000000; 1000000; 1000000; 1000000; 1000000; 1000000;
  1000000; 1000000; 1000000; 1000000; 1000000; 1000000; 1000000; 1000000; 1000000; 1000000; 1000000; 1000000; 1000000; 1000000; 1000000;
  1000000];
  [0; 0; 0; 0; 0; 0; 0; 0; 0; 0; 0; 0; 0; 0; 0; 970000; 972000; 974000; 976000; 978000; 980000; 982000; 984000; 986000; 988000; 990000;
  992000; 994000; 996000; 998000; 1000000; 1000000; 1000000; 1000000; 1000000; 1000000; 1000000; 1000000; 1000000; 1000000; 1000000;
  1000000; 1000000; 1000000; 1000000; 1000000; 1000000; 1000000; 1000000; 1000000; 1000000; 1000000; 1000000; 1000000; 1000000; 1000000;
  1000000; 1000000; 1000000; 1000000; 1000000; 1000000; 1000000; 1000000; 1000000; 1000000; 1000000; 1000000; 1000000; 1000000; 1000000;
  1000000; 1000000; 1000000; 1000000; 1000000; 1000000; 1000000; 1000000; 1000000; 1000000; 1000000; 1000000; 1000000; 1000000; 1000000;
  1000000; 1000000; 1000000; 1000000; 1000000; 1000000; 1000000; 1000000; 1000000; 1000000; 1000000; 1000000; 1000000; 1000000; 1000000;
  1000000; 1000000; 1000000; 1000000; 1000000; 1000000; 1000000; 1000000; 1000000; 1000000; 1000000; 1000000; 1000000; 1000000; 1000000;
  1000000; 1000000; 1000000; 1000000; 1000000; 1000000; 1000000; 1000000; 1000000; 1000000; 1000000; 1000000; 1000000; 1000000; 1000000;
  1000000; 1000000; 1000000; 1000000; 1000000; 1000000; 1000000; 1000000; 1000000; 1000000; 1000000; 1000000; 1000000; 1000000; 1000000;
  1000000; 1000000; 1000000; 1000000; 1000000; 1000000; 1000000; 1000000; 1000000; 1000000; 1000000; 1000000; 1000000; 1000000; 1000000;
  1000000; 1000000];
  [0; 0; 0; 0; 0; 0; 0; 0; 0; 0; 0; 0; 0; 0; 0; 970000; 972000; 974000; 976000; 978000; 980000; 982000; 984000; 986000; 988000; 990000;
  992000; 994000; 996000; 998000; 1000000; 1000000; 1000000; 1000000; 1000000; 1000000; 1000000; 1000000; 1000000; 1000000; 1000000;
  1000000; 1000000; 1000000; 1000000; 1000000; 1000000; 1000000; 1000000; 1000000; 1000000; 1000000; 1000000; 1000000; 1000000; 1000000;
  1000000; 1000000; 1000000; 1000000; 1000000; 1000000; 1000000; 1000000; 1000000; 1000000; 1000000; 1000000; 1000000; 1000000; 1000000;
  1000000; 1000000; 1000000; 1000000; 1000000; 1000000; 1000000; 1000000; 1000000; 1000000; 1000000; 1000000; 1000000; 1000000; 1000000;
  1000000; 1000000; 1000000; 1000000; 1000000; 1000000; 1000000; 1000000; 1000000; 1000000; 1000000; 1000000; 1000000; 1000000; 1000000;
  1000000; 1000000; 1000000; 1000000; 1000000; 1000000; 1000000; 1000000; 1000000; 1000000; 1000000; 1000000; 1000000; 1000000; 1000000;
  1000000; 1000000; 1000000; 1000000; 1000000; 1000000; 1000000; 1000000; 1000000; 1000000; 1000000; 1000000; 1000000; 1000000; 1000000;
  1000000; 1000000; 1000000; 1000000; 1000000; 1000000; 1000000; 1000000; 1000000; 1000000; 1000000; 1000000; 1000000; 1000000; 1000000;
  1000000; 1000000; 1000000; 1000000; 1000000; 1000000; 1000000; 1000000; 1000000; 1000000; 1000000; 1000000; 1000000; 1000000; 1000000;
  1000000; 1000000; 1000000];
  [0; 0; 0; 0; 0; 0; 0; 0; 0; 0; 0; 0; 0; 0; 0; 970000; 972000; 974000; 976000; 978000; 980000; 982000; 984000; 986000; 988000; 990000;
  992000; 994000; 996000; 998000; 1000000; 1000000; 1000000; 1000000; 1000000; 1000000; 1000000; 1000000; 1000000; 1000000; 1000000;
  1000000; 1000000; 1000000; 1000000; 1000000; 1000000; 1000000; 1000000; 1000000; 1000000; 1000000; 1000000; 1000000; 1000000; 1000000;
  1000000; 1000000; 1000000; 1000000; 1000000; 1000000; 1000000; 1000000; 1000000; 1000000; 1000000; 1000000; 1000000; 1000000; 1000000;
  1000000; 1000000; 1000000; 1000000; 1000000; 1000000; 1000000; 1000000; 1000000; 1000000; 1000000; 1000000; 1000000; 1000000; 1000000;
  1000000; 1000000; 1000000; 1000000; 1000000; 1000000; 1000000; 1000000; 1000000; 1000000; 1000000; 1000000; 1000000; 1000000; 1000000;
  1000000; 1000000; 1000000; 1000000; 1000000; 1000000; 1000000; 1000000; 1000000; 1000000; 1000000; 1000000; 1000000; 1000000; 1000000;
  1000000; 1000000; 1000000; 1000000; 1000000; 1000000; 1000000; 1000000; 1000000; 1000000; 1000000; 1000000; 1000000; 1000000; 1000000;
  1000000; 1000000; 1000000; 1000000; 1000000; 1000000; 1000000; 1000000; 1000000; 1000000; 1000000; 1000000; 1000000; 1000000; 1000000;
  1000000; 1000000; 1000000; 1000000; 1000000; 1000000; 1000000; 1000000; 1000000; 1000000; 1000000; 1000000; 1000000; 1000000; 1000000;
  1000000; 1000000; 1000000; 1000000];
  [0; 0; 0; 0; 0; 0; 0; 0; 0; 0; 0; 0; 0; 0; 0; 970000; 972000; 974000; 976000; 978000; 980000; 982000; 984000; 986000; 988000; 990000;
  992000; 994000; 996000; 998000; 1000000; 1000000; 1000000; 1000000; 1000000; 1000000; 1000000; 1000000; 1000000; 1000000; 1000000;
  1000000; 1000000; 1000000; 1000000; 1000000; 1000000; 1000000; 1000000; 1000000; 1000000; 1000000; 1000000; 1000000; 1000000; 1000000;
  1000000; 1000000; 1000000; 1000000; 1000000; 1000000; 1000000; 1000000; 1000000; 1000000; 1000000; 1000000; 1000000; 1000000; 1000000;
  1000000; 1000000; 1000000; 1000000; 1000000; 1000000; 1000000; 1000000; 1000000; 1000000; 1000000; 1000000; 1000000; 1000000; 1000000;
  1000000; 1000000; 1000000; 1000000; 1000000; 1000000; 1000000; 1000000; 1000000; 1000000; 1000000; 1000000; 1000000; 1000000; 1000000;
  1000000; 1000000; 1000000; 1000000; 1000000; 1000000; 1000000; 1000000; 1000000; 1000000; 1000000; 1000000; 1000000; 1000000; 1000000;
  1000000; 1000000; 1000000; 1000000; 1000000; 1000000; 1000000; 1000000; 1000000; 1000000; 1000000; 1000000; 1000000; 1000000; 1000000;
  1000000; 1000000; 1000000; 1000000; 1000000; 1000000; 1000000; 1000000; 1000000; 1000000; 1000000; 1000000; 1000000; 1000000; 1000000;
  1000000; 1000000; 1000000; 1000000; 1000000; 1000000; 1000000; 1000000; 1000000; 1000000; 1000000; 1000000; 1000000; 1000000; 1000000;
  1000000; 1000000; 1000000; 1000000; 1000000];
  [0; 0; 0; 0; 0; 0; 0; 0; 0; 0; 0; 0; 0; 0; 0; 970000; 972000; 974000; 976000; 978000; 980000; 982000; 984000; 986000; 988000; 990000;
  992000; 994000; 996000; 998000; 1000000; 1000000; 1000000; 1000000; 1000000; 1000000; 1000000; 1000000; 1000000; 1000000; 1000000;
  1000000; 1000000; 1000000; 1000000; 1000000; 1000000; 1000000; 1000000; 1000000; 1000000; 1000000; 1000000; 1000000; 1000000; 1000000;
  1000000; 1000000; 1000000; 1000000; 1000000; 1000000; 1000000; 1000000; 1000000; 1000000; 1000000; 1000000; 1000000; 1000000; 1000000;
  1000000; 1000000; 1000000; 1000000; 1000000; 1000000; 1000000; 1000000; 1000000; 1000000; 1000000; 1000000; 1000000; 1000000; 1000000;
  1000000; 1000000; 1000000; 1000000; 1000000; 1000000; 1000000; 1000000; 1000000; 1000000; 1000000; 1000000; 1000000; 1000000; 1000000;
  1000000; 1000000; 1000000; 1000000; 1000000; 1000000; 1000000; 1000000; 1000000; 1000000; 1000000; 1000000; 1000000; 1000000; 1000000;
  1000000; 1000000; 1000000; 1000000; 1000000; 1000000; 1000000; 1000000; 1000000; 1000000; 1000000; 1000000; 1000000; 1000000; 1000000;
  1000000; 1000000; 1000000; 1000000; 1000000; 1000000; 1000000; 1000000; 1000000; 1000000; 1000000; 1000000; 1000000; 1000000; 1000000;
  1000000; 1000000; 1000000; 1000000; 1000000; 1000000; 1000000; 1000000; 1000000; 1000000; 1000000; 1000000; 1000000; 1000000; 1000000;
  1000000; 1000000; 1000000; 1000000; 1000000; 1000000];
  [0; 0; 0; 0; 0; 0; 0; 0; 0; 0; 0; 0; 0; 0; 0; 970000; 972000; 974000; 976000; 978000; 980000; 982000; 984000; 986000; 988000; 990000;
  992000; 994000; 996000; 998000; 1000000; 1000000; 1000000; 1000000; 1000000; 1000000; 1000000; 1000000; 1000000; 1000000; 1000000;
  1000000; 1000000; 1000000; 1000000; 1000000; 1000000; 1000000; 1000000; 1000000; 1000000; 1000000; 1000000; 1000000; 1000000; 1000000;
  1000000; 1000000; 1000000; 1000000; 1000000; 1000000; 1000000; 1000000; 1000000; 1000000; 1000000; 1000000; 1000000; 1000000; 1000000;
  1000000; 1000000; 1000000; 1000000; 1000000; 1000000; 1000000; 1000000; 1000000; 1000000; 1000000; 1000000; 1000000; 1000000; 1000000;
  1000000; 1000000; 1000000; 1000000; 1000000; 1000000; 1000000; 1000000; 1000000; 1000000; 1000000; 1000000; 1000000; 1000000; 1000000;
  1000000; 1000000; 1000000; 1000000; 1000000; 1000000; 1000000; 1000000; 1000000; 1000000; 1000000; 1000000; 1000000; 1000000; 1000000;
  1000000; 1000000; 1000000; 1000000; 1000000; 1000000; 1000000; 1000000; 1000000; 1000000; 1000000; 1000000; 1000000; 1000000; 1000000;
  1000000; 1000000; 1000000; 1000000; 1000000; 1000000; 1000000; 1000000; 1000000; 1000000; 1000000; 1000000; 1000000; 1000000; 1000000;
  1000000; 1000000; 1000000; 1000000; 1000000; 1000000; 1000000; 1000000; 1000000; 1000000; 1000000; 1000000; 1000000; 1000000; 1000000;
  1000000; 1000000; 1000000; 1000000; 1000000; 1000000; 1000000];
  [0; 0; 0; 0; 0; 0; 0; 0; 0; 0; 0; 0; 0; 0; 0; 970000; 972000; 974000; 976000; 978000; 980000; 982000; 984000; 986000; 988000; 990000;
  992000; 994000; 996000; 998000; 1000000; 1000000; 1000000; 1000000; 1000000; 1000000; 1000000; 1000000; 1000000; 1000000; 1000000;
  1000000; 1000000; 1000000; 1000000; 1000000; 1000000; 1000000; 1000000; 1000000; 1000000; 1000000; 1000000; 1000000; 1000000; 1000000;
  1000000; 1000000; 1000000; 1000000; 1000000; 1000000; 1000000; 1000000; 1000000; 1000000; 1000000; 1000000; 1000000; 1000000; 1000000;
  1000000; 1000000; 1000000; 1000000; 1000000; 1000000; 1000000; 1000000; 1000000; 1000000; 1000000; 1000000; 1000000; 1000000; 1000000;
  1000000; 1000000; 1000000; 1000000; 1000000; 1000000; 1000000; 1000000; 1000000; 1000000; 1000000; 1000000; 1000000; 1000000; 1000000;
  1000000; 1000000; 1000000; 1000000; 1000000; 1000000; 1000000; 1000000; 1000000; 1000000; 1000000; 1000000; 1000000; 1000000; 1000000;
  1000000; 1000000; 1000000; 1000000; 1000000; 1000000; 1000000; 1000000; 1000000; 1000000; 1000000; 1000000; 1000000; 1000000; 1000000;
  1000000; 1000000; 1000000; 1000000; 1000000; 1000000; 1000000; 1000000; 1000000; 1000000; 1000000; 1000000; 1000000; 1000000; 1000000;
  1000000; 1000000; 1000000; 1000000; 1000000; 1000000; 1000000; 1000000; 1000000; 1000000; 1000000; 1000000; 1000000; 1000000; 1000000;
  1000000; 1000000; 1000000; 1000000; 1000000; 1000000; 1000000; 1000000];
  [0; 0; 0; 0; 0; 0; 0; 0; 0; 0; 0; 0; 0; 0; 0; 970000; 972000; 974000; 976000; 978000; 980000; 982000; 984000; 986000; 988000; 990000;
  992000; 994000; 996000; 998000; 1000000; 1000000; 1000000; 1000000; 1000000; 1000000; 1000000; 1000000; 1000000; 1000000; 1000000;
  1000000; 1000000; 1000000; 1000000; 1000000; 1000000; 1000000; 1000000; 1000000; 1000000; 1000000; 1000000; 1000000; 1000000; 1000000;
  1000000; 1000000; 1000000; 1000000; 1000000; 1000000; 1000000; 1000000; 1000000; 1000000; 1000000; 1000000; 1000000; 1000000; 1000000;
  1000000; 1000000; 1000000; 1000000; 1000000; 1000000; 1000000; 1000000; 1000000; 1000000; 1000000; 1000000; 1000000; 1000000; 1000000;
  1000000; 1000000; 1000000; 1000000; 1000000; 1000000; 1000000; 1000000; 1000000; 1000000; 1000000; 1000000; 1000000; 1000000; 1000000;
  1000000; 1000000; 1000000; 1000000; 1000000; 1000000; 1000000; 1000000; 1000000; 1000000; 1000000; 1000000; 1000000; 1000000; 1000000;
  1000000; 1000000; 1000000; 1000000; 1000000; 1000000; 1000000; 1000000; 1000000; 1000000; 1000000; 1000000; 1000000; 1000000; 1000000;
  1000000; 1000000; 1000000; 1000000; 1000000; 1000000; 1000000; 1000000; 1000000; 1000000; 1000000; 1000000; 1000000; 1000000; 1000000;
  1000000; 1000000; 1000000; 1000000; 1000000; 1000000; 1000000; 1000000; 1000000; 1000000; 1000000; 1000000; 1000000; 1000000; 1000000;
  1000000; 1000000; 1000000; 1000000; 1000000; 1000000; 1000000; 1000000; 1000000];
  [0; 0; 0; 0; 0; 0; 0; 0; 0; 0; 0; 0; 0; 0; 0; 970000; 972000; 974000; 976000; 978000; 980000; 982000; 984000; 986000; 988000; 990000;
  992000; 994000; 996000; 998000; 1000000; 1000000; 1000000; 1000000; 1000000; 1000000; 1000000; 1000000; 1000000; 1000000; 1000000;
  1000000; 1000000; 1000000; 1000000; 1000000; 1000000; 1000000; 1000000; 1000000; 1000000; 1000000; 1000000; 1000000; 1000000; 1000000;
  1000000; 1000000; 1000000; 1000000; 1000000; 1000000; 1000000; 1000000; 1000000; 1000000; 1000000; 1000000; 1000000; 1000000; 1000000;
  1000000; 1000000; 1000000; 1000000; 1000000; 1000000; 1000000; 1000000; 1000000; 1000000; 1000000; 1000000; 1000000; 1000000; 1000000;
  1000000; 1000000; 1000000; 1000000; 1000000; 1000000; 1000000; 1000000; 1000000; 1000000; 1000000; 1000000; 1000000; 1000000; 1000000;
  1000000; 1000000; 1000000; 1000000; 1000000; 1000000; 1000000; 1000000; 1000000; 1000000; 1000000; 1000000; 1000000; 1000000; 1000000;
  1000000; 1000000; 1000000; 1000000; 1000000; 1000000; 1000000; 1000000; 1000000; 1000000; 1000000; 1000000; 1000000; 1000000; 1000000;
  1000000; 1000000; 1000000; 1000000; 1000000; 1000000; 1000000; 1000000; 1000000; 1000000; 1000000; 1000000; 1000000; 1000000; 1000000;
  1000000; 1000000; 1000000; 1000000; 1000000; 1000000; 1000000; 1000000; 1000000; 1000000; 1000000; 1000000; 1000000; 1000000; 1000000;
  1000000; 1000000; 1000000; 1000000; 1000000; 1000000; 1000000; 1000000; 1000000; 1000000];
  [0; 0; 0; 0; 0; 0; 0; 0; 0; 0; 0; 0; 0; 0; 0; 970000; 972000; 974000; 976000; 978000; 980000; 982000; 984000; 986000; 988000; 990000;
  992000; 994000; 996000; 998000; 1000000; 1000000; 1000000; 1000000; 1000000; 1000000; 1000000; 1000000; 1000000; 1000000; 1000000;
  1000000; 1000000; 1000000; 1000000; 1000000; 1000000; 1000000; 1000000; 1000000; 1000000; 1000000; 1000000; 1000000; 1000000; 1000000;
  1000000; 1000000; 1000000; 1000000; 1000000; 1000000; 1000000; 1000000; 1000000; 1000000; 1000000; 1000000; 1000000; 1000000; 1000000;
  1000000; 1000000; 1000000; 1000000; 1000000; 1000000; 1000000; 1000000; 1000000; 1000000; 1000000; 1000000; 1000000; 1000000; 1000000;
  1000000; 1000000; 1000000; 1000000; 1000000; 1000000; 1000000; 1000000; 1000000; 1000000; 1000000; 1000000; 1000000; 1000000; 1000000;
  1000000; 1000000; 1000000; 1000000; 1000000; 1000000; 1000000; 1000000; 1000000; 1000000; 1000000; 1000000; 1000000; 1000000; 1000000;
  1000000; 1000000; 1000000; 1000000; 1000000; 1000000; 1000000; 1000000; 1000000; 1000000; 1000000; 1000000; 1000000; 1000000; 1000000;
  1000000; 1000000; 1000000; 1000000; 1000000; 1000000; 1000000; 1000000; 1000000; 1000000; 1000000; 1000000; 1000000; 1000000; 1000000;
  1000000; 1000000; 1000000; 1000000; 1000000; 1000000; 1000000; 1000000; 1000000; 1000000; 1000000; 1000000; 1000000; 1000000; 1000000;
  1000000; 1000000; 1000000; 1000000; 1000000; 1000000; 1000000; 1000000; 1000000; 1000000; 1000000];
  [0; 0; 0; 0; 0; 0; 0; 0; 0; 0; 0; 0; 0; 0; 0; 970000; 972000; 974000; 976000; 978000; 980000; 982000; 984000; 986000; 988000; 990000;
  992000; 994000; 996000; 998000; 1000000; 1000000; 1000000; 1000000; 1000000; 1000000; 1000000; 1000000; 1000000; 1000000; 1000000;
  1000000; 1000000; 1000000; 1000000; 1000000; 1000000; 1000000; 1000000; 1000000; 1000000; 1000000; 1000000; 1000000; 1000000; 1000000;
  1000000; 1000000; 1000000; 1000000; 1000000; 1000000; 1000000; 1000000; 1000000; 1000000; 1000000; 1000000; 1000000; 1000000; 1000000;
  1000000; 1000000; 1000000; 1000000; 1000000; 1000000; 1000000; 1000000; 1000000; 1000000; 1000000; 1000000; 1000000; 1000000; 1000000;
  1000000; 1000000; 1000000; 1000000; 1000000; 1000000; 1000000; 1000000; 1000000; 1000000; 1000000; 1000000; 1000000; 1000000; 1000000;
  1000000; 1000000; 1000000; 1000000; 1000000; 1000000; 1000000; 1000000; 1000000; 1000000; 1000000; 1000000; 1000000; 1000000; 1000000;
  1000000; 1000000; 1000000; 1000000; 1000000; 1000000; 1000000; 1000000; 1000000; 1000000; 1000000; 1000000; 1000000; 1000000; 1000000;
  1000000; 1000000; 1000000; 1000000; 1000000; 1000000; 1000000; 1000000; 1000000; 1000000; 1000000; 1000000; 1000000; 1000000; 1000000;
  1000000; 1000000; 1000000; 1000000; 1000000; 1000000; 1000000; 1000000; 1000000; 1000000; 1000000; 1000000; 1000000; 1000000; 1000000;
  1000000; 1000000; 1000000; 1000000; 1000000; 1000000; 1000000; 1000000; 1000000; 1000000; 1000000; 1000000];
  [0; 0; 0; 0; 0; 0; 0; 0; 0; 0; 0; 0; 0; 0; 0; 970000; 972000; 974000; 976000; 978000; 980000; 982000; 984000; 986000; 988000; 990000;
  992000; 994000; 996000; 998000; 1000000; 1000000; 1000000; 1000000; 1000000; 1000000; 1000000; 1000000; 1000000; 1000000; 1000000;
  1000000; 1000000; 1000000; 1000000; 1000000; 1000000; 1000000; 1000000; 1000000; 1000000; 1000000; 1000000; 1000000; 1000000; 1000000;
  1000000; 1000000; 1000000; 1000000; 1000000; 1000000; 1000000; 1000000; 1000000; 1000000; 1000000; 1000000; 1000000; 1000000; 1000000;
  1000000; 1000000; 1000000; 1000000; 1000000; 1000000; 1000000; 1000000; 1000000; 1000000; 1000000; 1000000; 1000000; 1000000; 1000000;
  1000000; 1000000; 1000000; 1000000; 1000000; 1000000; 1000000; 1000000; 1000000; 1000000; 1000000; 1000000; 1000000; 1000000; 1000000;
  1000000; 1000000; 1000000; 1000000; 1000000; 1000000; 1000000; 1000000; 1000000; 1000000; 1000000; 1000000; 1000000; 1000000; 1000000;
  1000000; 1000000; 1000000; 1000000; 1000000; 1000000; 1000000; 1000000; 1000000; 1000000; 1000000; 1000000; 1000000; 1000000; 1000000;
  1000000; 1000000; 1000000; 1000000; 1000000; 1000000; 1000000; 1000000; 1000000; 1000000; 1000000; 1000000; 1000000; 1000000; 1000000;
  1000000; 1000000; 1000000; 1000000; 1000000; 1000000; 1000000; 1000000; 1000000; 1000000; 1000000; 1000000; 1000000; 1000000; 1000000;
  1000000; 1000000; 1000000; 1000000; 1000000; 1000000; 1000000; 1000000; 1000000; 1000000; 1000000; 1000000; 1000000];
  [0; 0; 0; 0; 0; 0; 0; 0; 0; 0; 0; 0; 0; 0; 0; 970000; 972000; 974000; 976000; 978000; 980000; 982000; 984000; 986000; 988000; 990000;
  992000; 994000; 996000; 998000; 1000000; 1000000; 1000000; 1000000; 1000000; 1000000; 1000000; 1000000; 1000000; 1000000; 1000000;
  1000000; 1000000; 1000000; 1000000; 1000000; 1000000; 1000000; 1000000; 1000000; 1000000; 1000000; 1000000; 1000000; 1000000; 1000000;
  1000000; 1000000; 1000000; 1000000; 1000000; 1000000; 1000000; 1000000; 1000000; 1000000; 1000000; 1000000; 1000000; 1000000; 1000000;
  1000000; 1000000; 1000000; 1000000; 1000000; 1000000; 1000000; 1000000; 1000000; 1000000; 1000000; 1000000; 1000000; 1000000; 1000000;
  1000000; 1000000; 1000000; 1000000; 1000000; 1000000; 1000000; 1000000; 1000000; 1000000; 1000000; 1000000; 1000000; 1000000; 1000000;
  1000000; 1000000; 1000000; 1000000; 1000000; 1000000; 1000000; 1000000; 1000000; 1000000; 1000000; 1000000; 1000000; 1000000; 1000000;
  1000000; 1000000; 1000000; 1000000; 1000000; 1000000; 1000000; 1000000; 1000000; 1000000; 1000000; 1000000; 1000000; 1000000; 1000000;
  1000000; 1000000; 1000000; 1000000; 1000000; 1000000; 1000000; 1000000; 1000000; 1000000; 1000000; 1000000; 1000000; 1000000; 1000000;
  1000000; 1000000; 1000000; 1000000; 1000000; 1000000; 1000000; 1000000; 1000000; 1000000; 1000000; 1000000; 1000000; 1000000; 1000000;
  1000000; 1000000; 1000000; 1000000; 1000000; 1000000; 1000000; 1000000; 1000000; 1000000; 1000000; 1000000; 1000000; 1000000];
  [0; 0; 0; 0; 0; 0; 0; 0; 0; 0; 0; 0; 0; 0; 0; 970000; 972000; 974000; 976000; 978000; 980000; 982000; 984000; 986000; 988000; 990000;
  992000; 994000; 996000; 998000; 1000000; 1000000; 1000000; 1000000; 1000000; 1000000; 1000000; 1000000; 1000000; 1000000; 1000000;
  1000000; 1000000; 1000000; 1000000; 1000000; 1000000; 1000000; 1000000; 1000000; 1000000; 1000000; 1000000; 1000000; 1000000; 1000000;
  1000000; 1000000; 1000000; 1000000; 1000000; 1000000; 1000000; 1000000; 1000000; 1000000; 1000000; 1000000; 1000000; 1000000; 1000000;
  1000000; 1000000; 1000000; 1000000; 1000000; 1000000; 1000000; 1000000; 1000000; 1000000; 1000000; 1000000; 1000000; 1000000; 1000000;
  1000000; 1000000; 1000000; 1000000; 1000000; 1000000; 1000000; 1000000; 1000000; 1000000; 1000000; 1000000; 1000000; 1000000; 1000000;
  1000000; 1000000; 1000000; 1000000; 1000000; 1000000; 1000000; 1000000; 1000000; 1000000; 1000000; 1000000; 1000000; 1000000; 1000000;
  1000000; 1000000; 1000000; 1000000; 1000000; 1000000; 1000000; 1000000; 1000000; 1000000; 1000000; 1000000; 1000000; 1000000; 1000000;
  1000000; 1000000; 1000000; 1000000; 1000000; 1000000; 1000000; 1000000; 1000000; 1000000; 1000000; 1000000; 1000000; 1000000; 1000000;
  1000000; 1000000; 1000000; 1000000; 1000000; 1000000; 1000000; 1000000; 1000000; 1000000; 1000000; 1000000; 1000000; 1000000; 1000000;
  1000000; 1000000; 1000000; 1000000; 1000000; 1000000; 1000000; 1000000; 1000000; 1000000; 1000000; 1000000; 1000000; 1000000; 1000000];
  [0; 0; 0; 0; 0; 0; 0; 0; 0; 0; 0; 0; 0; 0; 0; 970000; 972000; 974000; 976000; 978000; 980000; 982000; 984000; 986000; 988000; 990000;
  992000; 994000; 996000; 998000; 1000000; 1000000; 1000000; 1000000; 1000000; 1000000; 1000000; 1000000; 1000000; 1000000; 1000000;
  1000000; 1000000; 1000000; 1000000; 1000000; 1000000; 1000000; 1000000; 1000000; 1000000; 1000000; 1000000; 1000000; 1000000; 1000000;
  1000000; 1000000; 1000000; 1000000; 1000000; 1000000; 1000000; 1000000; 1000000; 1000000; 1000000; 1000000; 1000000; 1000000; 1000000;
  1000000; 1000000; 1000000; 1000000; 1000000; 1000000; 1000000; 1000000; 1000000; 1000000; 1000000; 1000000; 1000000; 1000000; 1000000;
  1000000; 1000000; 1000000; 1000000; 1000000; 1000000; 1000000; 1000000; 1000000; 1000000; 1000000; 1000000; 1000000; 1000000; 1000000;
  1000000; 1000000; 1000000; 1000000; 1000000; 1000000; 1000000; 1000000; 1000000; 1000000; 1000000; 1000000; 1000000; 1000000; 1000000;
  1000000; 1000000; 1000000; 1000000; 1000000; 1000000; 1000000; 1000000; 1000000; 1000000; 1000000; 1000000; 1000000; 1000000; 1000000;
  1000000; 1000000; 1000000; 1000000; 1000000; 1000000; 1000000; 1000000; 1000000; 1000000; 1000000; 1000000; 1000000; 1000000; 1000000;
  1000000; 1000000; 1000000; 1000000; 1000000; 1000000; 1000000; 1000000; 1000000; 1000000; 1000000; 1000000; 1000000; 1000000; 1000000;
  1000000; 1000000; 1000000; 1000000; 1000000; 1000000; 1000000; 1000000; 1000000; 1000000; 1000000; 1000000; 1000000; 1000000; 1000000;
  1000000];
  [0; 0; 0; 0; 0; 0; 0; 0; 0; 0; 0; 0; 0; 0; 0; 970000; 972000; 974000; 976000; 978000; 980000; 982000; 984000; 986000; 988000; 990000;
  992000; 994000; 996000; 998000; 1000000; 1000000; 1000000; 1000000; 1000000; 1000000; 1000000; 1000000; 1000000; 1000000; 1000000;
  1000000; 1000000; 1000000; 1000000; 1000000; 1000000; 1000000; 1000000; 1000000; 1000000; 1000000; 1000000; 1000000; 1000000; 1000000;
  1000000; 1000000; 1000000; 1000000; 1000000; 1000000; 1000000; 1000000; 1000000; 1000000; 1000000; 1000000; 1000000; 1000000; 1000000;
  1000000; 1000000; 1000000; 1000000; 1000000; 1000000; 1000000; 1000000; 1000000; 1000000; 1000000; 1000000; 1000000; 1000000; 1000000;
  1000000; 1000000; 1000000; 1000000; 1000000; 1000000; 1000000; 1000000; 1000000; 1000000; 1000000; 1000000; 1000000; 1000000; 1000000;
  1000000; 1000000; 1000000; 1000000; 1000000; 1000000; 1000000; 1000000; 1000000; 1000000; 1000000; 1000000; 1000000; 1000000; 1000000;
  1000000; 1000000; 1000000; 1000000; 1000000; 1000000; 1000000; 1000000; 1000000; 1000000; 1000000; 1000000; 1000000; 1000000; 1000000;
  1000000; 1000000; 1000000; 1000000; 1000000; 1000000; 1000000; 1000000; 1000000; 1000000; 1000000; 1000000; 1000000; 1000000; 1000000;
  1000000; 1000000; 1000000; 1000000; 1000000; 1000000; 1000000; 1000000; 1000000; 1000000; 1000000; 1000000; 1000000; 1000000; 1000000;
  1000000; 1000000; 1000000; 1000000; 1000000; 1000000; 1000000; 1000000; 1000000; 1000000; 1000000; 1000000; 1000000; 1000000; 1000000;
  1000000; 1000000];
  [0; 0; 0; 0; 0; 0; 0; 0; 0; 0; 0; 0; 0; 0; 0; 970000; 972000; 974000; 976000; 978000; 980000; 982000; 984000; 986000; 988000; 990000;
  992000; 994000; 996000; 998000; 1000000; 1000000; 1000000; 1000000; 1000000; 1000000; 1000000; 1000000; 1000000; 1000000; 1000000;
  1000000; 1000000; 1000000; 1000000; 1000000; 1000000; 1000000; 1000000; 1000000; 1000000; 1000000; 1000000; 1000000; 1000000; 1000000;
  1000000; 1000000; 1000000; 1000000; 1000000; 1000000; 1000000; 1000000; 1000000; 1000000; 1000000; 1000000; 1000000; 1000000; 1000000;
  1000000; 1000000; 1000000; 1000000; 1000000; 1000000; 1000000; 1000000; 1000000; 1000000; 1000000; 1000000; 1000000; 1000000; 1000000;
  1000000; 1000000; 1000000; 1000000; 1000000; 1000000; 1000000; 1000000; 1000000; 1000000; 1000000; 1000000; 1000000; 1000000; 1000000;
  1000000; 1000000; 1000000; 1000000; 1000000; 1000000; 1000000; 1000000; 1000000; 1000000; 1000000; 1000000; 1000000; 1000000; 1000000;
  1000000; 1000000; 1000000; 1000000; 1000000; 1000000; 1000000; 1000000; 1000000; 1000000; 1000000; 1000000; 1000000; 1000000; 1000000;
  1000000; 1000000; 1000000; 1000000; 1000000; 1000000; 1000000; 1000000; 1000000; 1000000; 1000000; 1000000; 1000000; 1000000; 1000000;
  1000000; 1000000; 1000000; 1000000; 1000000; 1000000; 1000000; 1000000; 1000000; 1000000; 1000000; 1000000; 1000000; 1000000; 1000000;
  1000000; 1000000; 1000000; 1000000; 1000000; 1000000; 1000000; 1000000; 1000000; 1000000; 1000000; 1000000; 1000000; 1000000; 1000000;
  1000000; 1000000; 1000000];
  [0; 0; 0; 0; 0; 0; 0; 0; 0; 0; 0; 0; 0; 0; 0; 970000; 972000; 974000; 976000; 978000; 980000; 982000; 984000; 986000; 988000; 990000;
  992000; 994000; 996000; 998000; 1000000; 1000000; 1000000; 1000000; 1000000; 1000000; 1000000; 1000000; 1000000; 1000000; 1000000;
  1000000; 1000000; 1000000; 1000000; 1000000; 1000000; 1000000; 1000000; 1000000; 1000000; 1000000; 1000000; 1000000; 1000000; 1000000;
  1000000; 1000000; 1000000; 1000000; 1000000; 1000000; 1000000; 1000000; 1000000; 1000000; 1000000; 1000000; 1000000; 1000000; 1000000;
  1000000; 1000000; 1000000; 1000000; 1000000; 1000000; 1000000; 1000000; 1000000; 1000000; 1000000; 1000000; 1000000; 1000000; 1000000;
  1000000; 1000000; 1000000; 1000000; 1000000; 1000000; 1000000; 1000000; 1000000; 1000000; 1000000; 1000000; 1000000; 1000000; 1000000;
  1000000; 1000000; 1000000; 1000000; 1000000; 1000000; 1000000; 1000000; 1000000; 1000000; 1000000; 1000000; 1000000; 1000000; 1000000;
  1000000; 1000000; 1000000; 1000000; 1000000; 1000000; 1000000; 1000000; 1000000; 1000000; 1000000; 1000000; 1000000; 1000000; 1000000;
  1000000; 1000000; 1000000; 1000000; 1000000; 1000000; 1000000; 1000000; 1000000; 1000000; 1000000; 1000000; 1000000; 1000000; 1000000;
  1000000; 1000000; 1000000; 1000000; 1000000; 1000000; 1000000; 1000000; 1000000; 1000000; 1000000; 1000000; 1000000; 1000000; 1000000;
  1000000; 1000000; 1000000; 1000000; 1000000; 1000000; 1000000; 1000000; 1000000; 1000000; 1000000; 1000000; 1000000; 1000000; 1000000;
  1000000; 1000000; 1000000; 1000000];
  [0; 0; 0; 0; 0; 0; 0; 0; 0; 0; 0; 0; 0; 0; 0; 970000; 972000; 974000; 976000; 978000; 980000; 982000; 984000; 986000; 988000; 990000;
  992000; 994000; 996000; 998000; 1000000; 1000000; 1000000; 1000000; 1000000; 1000000; 1000000; 1000000; 1000000; 1000000; 1000000;
  1000000; 1000000; 1000000; 1000000; 1000000; 1000000; 1000000; 1000000; 1000000; 1000000; 1000000; 1000000; 1000000; 1000000; 1000000;
  1000000; 1000000; 1000000; 1000000; 1000000; 1000000; 1000000; 1000000; 1000000; 1000000; 1000000; 1000000; 1000000; 1000000; 1000000;
  1000000; 1000000; 1000000; 1000000; 1000000; 1000000; 1000000; 1000000; 1000000; 1000000; 1000000; 1000000; 1000000; 1000000; 1000000;
  1000000; 1000000; 1000000; 1000000; 1000000; 1000000; 1000000; 1000000; 1000000; 1000000; 1000000; 1000000; 1000000; 1000000; 1000000;
  1000000; 1000000; 1000000; 1000000; 1000000; 1000000; 1000000; 1000000; 1000000; 1000000; 1000000; 1000000; 1000000; 1000000; 1000000;
  1000000; 1000000; 1000000; 1000000; 1000000; 1000000; 1000000; 1000000; 1000000; 1000000; 1000000; 1000000; 1000000; 1000000; 1000000;
  1000000; 1000000; 1000000; 1000000; 1000000; 1000000; 1000000; 1000000; 1000000; 1000000; 1000000; 1000000; 1000000; 1000000; 1000000;
  1000000; 1000000; 1000000; 1000000; 1000000; 1000000; 1000000; 1000000; 1000000; 1000000; 1000000; 1000000; 1000000; 1000000; 1000000;
  1000000; 1000000; 1000000; 1000000; 1000000; 1000000; 1000000; 1000000; 1000000; 1000000; 1000000; 1000000; 1000000; 1000000; 1000000;
  1000000; 1000000; 1000000; 1000000; 1000000];
  [0; 0; 0; 0; 0; 0; 0; 0; 0; 0; 0; 0; 0; 0; 0; 970000; 972000; 974000; 976000; 978000; 980000; 982000; 984000; 986000; 988000; 990000;
  992000; 994000; 996000; 998000; 1000000; 1000000; 1000000; 1000000; 1000000; 1000000; 1000000; 1000000; 1000000; 1000000; 1000000;
  1000000; 1000000; 1000000; 1000000; 1000000; 1000000; 1000000; 1000000; 1000000; 1000000; 1000000; 1000000; 1000000; 1000000; 1000000;
  1000000; 1000000; 1000000; 1000000; 1000000; 1000000; 1000000; 1000000; 1000000; 1000000; 1000000; 1000000; 1000000; 1000000; 1000000;
  1000000; 1000000; 1000000; 1000000; 1000000; 1000000; 1000000; 1000000; 1000000; 1000000; 1000000; 1000000; 1000000; 1000000; 1000000;
  1000000; 1000000; 1000000; 1000000; 1000000; 1000000; 1000000; 1000000; 1000000; 1000000; 1000000; 1000000; 1000000; 1000000; 1000000;
  1000000; 1000000; 1000000; 1000000; 1000000; 1000000; 1000000; 1000000; 1000000; 1000000; 1000000; 1000000; 1000000; 1000000; 1000000;
  1000000; 1000000; 1000000; 1000000; 1000000; 1000000; 1000000; 1000000; 1000000; 1000000; 1000000; 1000000; 1000000; 1000000; 1000000;
  1000000; 1000000; 1000000; 1000000; 1000000; 1000000; 1000000; 1000000; 1000000; 1000000; 1000000; 1000000; 1000000; 1000000; 1000000;
  1000000; 1000000; 1000000; 1000000; 1000000; 1000000; 1000000; 1000000; 1000000; 1000000; 1000000; 1000000; 1000000; 1000000; 1000000;
  1000000; 1000000; 1000000; 1000000; 1000000; 1000000; 1000000; 1000000; 1000000; 1000000; 1000000; 1000000; 1000000; 1000000; 1000000;
  1000000; 1000000; 1000000; 1000000; 1000000; 1000000];
  [0; 0; 0; 0; 0; 0; 0; 0; 0; 0; 0; 0; 0; 0; 0; 970000; 972000; 974000; 976000; 978000; 980000; 982000; 984000; 986000; 988000; 990000;
  992000; 994000; 996000; 998000; 1000000; 1000000; 1000000; 1000000; 1000000; 1000000; 1000000; 1000000; 1000000; 1000000; 1000000;
  1000000; 1000000; 1000000; 1000000; 1000000; 1000000; 1000000; 1000000; 1000000; 1000000; 1000000; 1000000; 1000000; 1000000; 1000000;
  1000000; 1000000; 1000000; 1000000; 1000000; 1000000; 1000000; 1000000; 1000000; 1000000; 1000000; 1000000; 1000000; 1000000; 1000000;
  1000000; 1000000; 1000000; 1000000; 1000000; 1000000; 1000000; 1000000; 1000000; 1000000; 1000000; 1000000; 1000000; 1000000; 1000000;
  1000000; 1000000; 1000000; 1000000; 1000000; 1000000; 1000000; 1000000; 1000000; 1000000; 1000000; 1000000; 1000000; 1000000; 1000000;
  1000000; 1000000; 1000000; 1000000; 1000000; 1000000; 1000000; 1000000; 1000000; 1000000; 1000000; 1000000; 1000000; 1000000; 1000000;
  1000000; 1000000; 1000000; 1000000; 1000000; 1000000; 1000000; 1000000; 1000000; 1000000; 1000000; 1000000; 1000000; 1000000; 1000000;
  1000000; 1000000; 1000000; 1000000; 1000000; 1000000; 1000000; 1000000; 1000000; 1000000; 1000000; 1000000; 1000000; 1000000; 1000000;
  1000000; 1000000; 1000000; 1000000; 1000000; 1000000; 1000000; 1000000; 1000000; 1000000; 1000000; 1000000; 1000000; 1000000; 1000000;
  1000000; 1000000; 1000000; 1000000; 1000000; 1000000; 1000000; 1000000; 1000000; 1000000; 1000000; 1000000; 1000000; 1000000; 1000000;
  1000000; 1000000; 1000000; 1000000; 1000000; 1000000; 1000000];
  [0; 0; 0; 0; 0; 0; 0; 0; 0; 0; 0; 0; 0; 0; 0; 970000; 972000; 974000; 976000; 978000; 980000; 982000; 984000; 986000; 988000; 990000;
  992000; 994000; 996000; 998000; 1000000; 1000000; 1000000; 1000000; 1000000; 1000000; 1000000; 1000000; 1000000; 1000000; 1000000;
  1000000; 1000000; 1000000; 1000000; 1000000; 1000000; 1000000; 1000000; 1000000; 1000000; 1000000; 1000000; 1000000; 1000000; 1000000;
  1000000; 1000000; 1000000; 1000000; 1000000; 1000000; 1000000; 1000000; 1000000; 1000000; 1000000; 1000000; 1000000; 1000000; 1000000;
  1000000; 1000000; 1000000; 1000000; 1000000; 1000000; 1000000; 1000000; 1000000; 1000000; 1000000; 1000000; 1000000; 1000000; 1000000;
  1000000; 1000000; 1000000; 1000000; 1000000; 1000000; 1000000; 1000000; 1000000; 1000000; 1000000; 1000000; 1000000; 1000000; 1000000;
  1000000; 1000000; 1000000; 1000000; 1000000; 1000000; 1000000; 1000000; 1000000; 1000000; 1000000; 1000000; 1000000; 1000000; 1000000;
  1000000; 1000000; 1000000; 1000000; 1000000; 1000000; 1000000; 1000000; 1000000; 1000000; 1000000; 1000000; 1000000; 1000000; 1000000;
  1000000; 1000000; 1000000; 1000000; 1000000; 1000000; 1000000; 1000000; 1000000; 1000000; 1000000; 1000000; 1000000; 1000000; 1000000;
  1000000; 1000000; 1000000; 1000000; 1000000; 1000000; 1000000; 1000000; 1000000; 1000000; 1000000; 1000000; 1000000; 1000000; 1000000;
  1000000; 1000000; 1000000; 1000000; 1000000; 1000000; 1000000; 1000000; 1000000; 1000000; 1000000; 1000000; 1000000; 1000000; 1000000;
  1000000; 1000000; 1000000; 1000000; 1000000; 1000000; 1000000; 1000000];
  [0; 0; 0; 0; 0; 0; 0; 0; 0; 0; 0; 0; 0; 0; 0; 970000; 972000; 974000; 976000; 978000; 980000; 982000; 984000; 986000; 988000; 990000;
  992000; 994000; 996000; 998000; 1000000; 1000000; 1000000; 1000000; 1000000; 1000000; 1000000; 1000000; 1000000; 1000000; 1000000;
  1000000; 1000000; 1000000; 1000000; 1000000; 1000000; 1000000; 1000000; 1000000; 1000000; 1000000; 1000000; 1000000; 1000000; 1000000;
  1000000; 1000000; 1000000; 1000000; 1000000; 1000000; 1000000; 1000000; 1000000; 1000000; 1000000; 1000000; 1000000; 1000000; 1000000;
  1000000; 1000000; 1000000; 1000000; 1000000; 1000000; 1000000; 1000000; 1000000; 1000000; 1000000; 1000000; 1000000; 1000000; 1000000;
  1000000; 1000000; 1000000; 1000000; 1000000; 1000000; 1000000; 1000000; 1000000; 1000000; 1000000; 1000000; 1000000; 1000000; 1000000;
  1000000; 1000000; 1000000; 1000000; 1000000; 1000000; 1000000; 1000000; 1000000; 1000000; 1000000; 1000000; 1000000; 1000000; 1000000;
  1000000; 1000000; 1000000; 1000000; 1000000; 1000000; 1000000; 1000000; 1000000; 1000000; 1000000; 1000000; 1000000; 1000000; 1000000;
  1000000; 1000000; 1000000; 1000000; 1000000; 1000000; 1000000; 1000000; 1000000; 1000000; 1000000; 1000000; 1000000; 1000000; 1000000;
  1000000; 1000000; 1000000; 1000000; 1000000; 1000000; 1000000; 1000000; 1000000; 1000000; 1000000; 1000000; 1000000; 1000000; 1000000;
  1000000; 1000000; 1000000; 1000000; 1000000; 1000000; 1000000; 1000000; 1000000; 1000000; 1000000; 1000000; 1000000; 1000000; 1000000;
  1000000; 1000000; 1000000; 1000000; 1000000; 1000000; 1000000; 1000000; 1000000];
  [0; 0; 0; 0; 0; 0; 0; 0; 0; 0; 0; 0; 0; 0; 0; 970000; 972000; 974000; 976000; 978000; 980000; 982000; 984000; 986000; 988000; 990000;
  992000; 994000; 996000; 998000; 1000000; 1000000; 1000000; 1000000; 1000000; 1000000; 1000000; 1000000; 1000000; 1000000; 1000000;
  1000000; 1000000; 1000000; 1000000; 1000000; 1000000; 1000000; 1000000; 1000000; 1000000; 1000000; 1000000; 1000000; 1000000; 1000000;
  1000000; 1000000; 1000000; 1000000; 1000000; 1000000; 1000000; 1000000; 1000000; 1000000; 1000000; 1000000; 1000000; 1000000; 1000000;
  1000000; 1000000; 1000000; 1000000; 1000000; 1000000; 1000000; 1000000; 1000000; 1000000; 1000000; 1000000; 1000000; 1000000; 1000000;
  1000000; 1000000; 1000000; 1000000; 1000000; 1000000; 1000000; 1000000; 1000000; 1000000; 1000000; 1000000; 1000000; 1000000; 1000000;
  1000000; 1000000; 1000000; 1000000; 1000000; 1000000; 1000000; 1000000; 1000000; 1000000; 1000000; 1000000; 1000000; 1000000; 1000000;
  1000000; 1000000; 1000000; 1000000; 1000000; 1000000; 1000000; 1000000; 1000000; 1000000; 1000000; 1000000; 1000000; 1000000; 1000000;
  1000000; 1000000; 1000000; 1000000; 1000000; 1000000; 1000000; 1000000; 1000000; 1000000; 1000000; 1000000; 1000000; 1000000; 1000000;
  1000000; 1000000; 1000000; 1000000; 1000000; 1000000; 1000000; 1000000; 1000000; 1000000; 1000000; 1000000; 1000000; 1000000; 1000000;
  1000000; 1000000; 1000000; 1000000; 1000000; 1000000; 1000000; 1000000; 1000000; 1000000; 1000000; 1000000; 1000000; 1000000; 1000000;
  1000000; 1000000; 1000000; 1000000; 1000000; 1000000; 1000000; 1000000; 1000000; 1000000];
  [0; 0; 0; 0; 0; 0; 0; 0; 0; 0; 0; 0; 0; 0; 0; 970000; 972000; 974000; 976000; 978000; 980000; 982000; 984000; 986000; 988000; 990000;
  992000; 994000; 996000; 998000; 1000000; 1000000; 1000000; 1000000; 1000000; 1000000; 1000000; 1000000; 1000000; 1000000; 1000000;
  1000000; 1000000; 1000000; 1000000; 1000000; 1000000; 1000000; 1000000; 1000000; 1000000; 1000000; 1000000; 1000000; 1000000; 1000000;
  1000000; 1000000; 1000000; 1000000; 1000000; 1000000; 1000000; 1000000; 1000000; 1000000; 1000000; 1000000; 1000000; 1000000; 1000000;
  1000000; 1000000; 1000000; 1000000; 1000000; 1000000; 1000000; 1000000; 1000000; 1000000; 1000000; 1000000; 1000000; 1000000; 1000000;
  1000000; 1000000; 1000000; 1000000; 1000000; 1000000; 1000000; 1000000; 1000000; 1000000; 1000000; 1000000; 1000000; 1000000; 1000000;
  1000000; 1000000; 1000000; 1000000; 1000000; 1000000; 1000000; 1000000; 1000000; 1000000; 1000000; 1000000; 1000000; 1000000; 1000000;
  1000000; 1000000; 1000000; 1000000; 1000000; 1000000; 1000000; 1000000; 1000000; 1000000; 1000000; 1000000; 1000000; 1000000; 1000000;
  1000000; 1000000; 1000000; 1000000; 1000000; 1000000; 1000000; 1000000; 1000000; 1000000; 1000000; 1000000; 1000000; 1000000; 1000000;
  1000000; 1000000; 1000000; 1000000; 1000000; 1000000; 1000000; 1000000; 1000000; 1000000; 1000000; 1000000; 1000000; 1000000; 1000000;
  1000000; 1000000; 1000000; 1000000; 1000000; 1000000; 1000000; 1000000; 1000000; 1000000; 1000000; 1000000; 1000000; 1000000; 1000000;
  1000000; 1000000; 1000000; 1000000; 1000000; 1000000; 1000000; 1000000; 1000000; 1000000; 1000000];
  [0; 0; 0; 0; 0; 0; 0; 0; 0; 0; 0; 0; 0; 0; 0; 970000; 972000; 974000; 976000; 978000; 980000; 982000; 984000; 986000; 988000; 990000;
  992000; 994000; 996000; 998000; 1000000; 1000000; 1000000; 1000000; 1000000; 1000000; 1000000; 1000000; 1000000; 1000000; 1000000;
  1000000; 1000000; 1000000; 1000000; 1000000; 1000000; 1000000; 1000000; 1000000; 1000000; 1000000; 1000000; 1000000; 1000000; 1000000;
  1000000; 1000000; 1000000; 1000000; 1000000; 1000000; 1000000; 1000000; 1000000; 1000000; 1000000; 1000000; 1000000; 1000000; 1000000;
  1000000; 1000000; 1000000; 1000000; 1000000; 1000000; 1000000; 1000000; 1000000; 1000000; 1000000; 1000000; 1000000; 1000000; 1000000;
  1000000; 1000000; 1000000; 1000000; 1000000; 1000000; 1000000; 1000000; 1000000; 1000000; 1000000; 1000000; 1000000; 1000000; 1000000;
  1000000; 1000000; 1000000; 1000000; 1000000; 1000000; 1000000; 1000000; 1000000; 1000000; 1000000; 1000000; 1000000; 1000000; 1000000;
  1000000; 1000000; 1000000; 1000000; 1000000; 1000000; 1000000; 1000000; 1000000; 1000000; 1000000; 1000000; 1000000; 1000000; 1000000;
  1000000; 1000000; 1000000; 1000000; 1000000; 1000000; 1000000; 1000000; 1000000; 1000000; 1000000; 1000000; 1000000; 1000000; 1000000;
  1000000; 1000000; 1000000; 1000000; 1000000; 1000000; 1000000; 1000000; 1000000; 1000000; 1000000; 1000000; 1000000; 1000000; 1000000;
  1000000; 1000000; 1000000; 1000000; 1000000; 1000000; 1000000; 1000000; 1000000; 1000000; 1000000; 1000000; 1000000; 1000000; 1000000;
  1000000; 1000000; 1000000; 1000000; 1000000; 1000000; 1000000; 1000000; 1000000; 1000000; 1000000; 1000000];
  [0; 0; 0; 0; 0; 0; 0; 0; 0; 0; 0; 0; 0; 0; 0; 970000; 972000; 974000; 976000; 978000; 980000; 982000; 984000; 986000; 988000; 990000;
  992000; 994000; 996000; 998000; 1000000; 1000000; 1000000; 1000000; 1000000; 1000000; 1000000; 1000000; 1000000; 1000000; 1000000;
  1000000; 1000000; 1000000; 1000000; 1000000; 1000000; 1000000; 1000000; 1000000; 1000000; 1000000; 1000000; 1000000; 1000000; 1000000;
  1000000; 1000000; 1000000; 1000000; 1000000; 1000000; 1000000; 1000000; 1000000; 1000000; 1000000; 1000000; 1000000; 1000000; 1000000;
  1000000; 1000000; 1000000; 1000000; 1000000; 1000000; 1000000; 1000000; 1000000; 1000000; 1000000; 1000000; 1000000; 1000000; 1000000;
  1000000; 1000000; 1000000; 1000000; 1000000; 1000000; 1000000; 1000000; 1000000; 1000000; 1000000; 1000000; 1000000; 1000000; 1000000;
  1000000; 1000000; 1000000; 1000000; 1000000; 1000000; 1000000; 1000000; 1000000; 1000000; 1000000; 1000000; 1000000; 1000000; 1000000;
  1000000; 1000000; 1000000; 1000000; 1000000; 1000000; 1000000; 1000000; 1000000; 1000000; 1000000; 1000000; 1000000; 1000000; 1000000;
  1000000; 1000000; 1000000; 1000000; 1000000; 1000000; 1000000; 1000000; 1000000; 1000000; 1000000; 1000000; 1000000; 1000000; 1000000;
  1000000; 1000000; 1000000; 1000000; 1000000; 1000000; 1000000; 1000000; 1000000; 1000000; 1000000; 1000000; 1000000; 1000000; 1000000;
  1000000; 1000000; 1000000; 1000000; 1000000; 1000000; 1000000; 1000000; 1000000; 1000000; 1000000; 1000000; 1000000; 1000000; 1000000;
  1000000; 1000000; 1000000; 1000000; 1000000; 1000000; 1000000; 1000000; 1000000; 1000000; 1000000; 1000000; 1000000];
  [0; 0; 0; 0; 0; 0; 0; 0; 0; 0; 0; 0; 0; 0; 0; 970000; 972000; 974000; 976000; 978000; 980000; 982000; 984000; 986000; 988000; 990000;
  992000; 994000; 996000; 998000; 1000000; 1000000; 1000000; 1000000; 1000000; 1000000; 1000000; 1000000; 1000000; 1000000; 1000000;
  1000000; 1000000; 1000000; 1000000; 1000000; 1000000; 1000000; 1000000; 1000000; 1000000; 1000000; 1000000; 1000000; 1000000; 1000000;
  1000000; 1000000; 1000000; 1000000; 1000000; 1000000; 1000000; 1000000; 1000000; 1000000; 1000000; 1000000; 1000000; 1000000; 1000000;
  1000000; 1000000; 1000000; 1000000; 1000000; 1000000; 1000000; 1000000; 1000000; 1000000; 1000000; 1000000; 1000000; 1000000; 1000000;
  1000000; 1000000; 1000000; 1000000; 1000000; 1000000; 1000000; 1000000; 1000000; 1000000; 1000000; 1000000; 1000000; 1000000; 1000000;
  1000000; 1000000; 1000000; 1000000; 1000000; 1000000; 1000000; 1000000; 1000000; 1000000; 1000000; 1000000; 1000000; 1000000; 1000000;
  1000000; 1000000; 1000000; 1000000; 1000000; 1000000; 1000000; 1000000; 1000000; 1000000; 1000000; 1000000; 1000000; 1000000; 1000000;
  1000000; 1000000; 1000000; 1000000; 1000000; 1000000; 1000000; 1000000; 1000000; 1000000; 1000000; 1000000; 1000000; 1000000; 1000000;
  1000000; 1000000; 1000000; 1000000; 1000000; 1000000; 1000000; 1000000; 1000000; 1000000; 1000000; 1000000; 1000000; 1000000; 1000000;
  1000000; 1000000; 1000000; 1000000; 1000000; 1000000; 1000000; 1000000; 1000000; 1000000; 1000000; 1000000; 1000000; 1000000; 1000000;
  1000000; 1000000; 1000000; 1000000; 1000000; 1000000; 1000000; 1000000; 1000000; 1000000; 1000000; 1000000; 1000000; 1000000];
  [0; 0; 0; 0; 0; 0; 0; 0; 0; 0; 0; 0; 0; 0; 0; 970000; 972000; 974000; 976000; 978000; 980000; 982000; 984000; 986000; 988000; 990000;
  992000; 994000; 996000; 998000; 1000000; 1000000; 1000000; 1000000; 1000000; 1000000; 1000000; 1000000; 1000000; 1000000; 1000000;
  1000000; 1000000; 1000000; 1000000; 1000000; 1000000; 1000000; 1000000; 1000000; 1000000; 1000000; 1000000; 1000000; 1000000; 1000000;
  1000000; 1000000; 1000000; 1000000; 1000000; 1000000; 1000000; 1000000; 1000000; 1000000; 1000000; 1000000; 1000000; 1000000; 1000000;
  1000000; 1000000; 1000000; 1000000; 1000000; 1000000; 1000000; 1000000; 1000000; 1000000; 1000000; 1000000; 1000000; 1000000; 1000000;
  1000000; 1000000; 1000000; 1000000; 1000000; 1000000; 1000000; 1000000; 1000000; 1000000; 1000000; 1000000; 1000000; 1000000; 1000000;
  1000000; 1000000; 1000000; 1000000; 1000000; 1000000; 1000000; 1000000; 1000000; 1000000; 1000000; 1000000; 1000000; 1000000; 1000000;
  1000000; 1000000; 1000000; 1000000; 1000000; 1000000; 1000000; 1000000; 1000000; 1000000; 1000000; 1000000; 1000000; 1000000; 1000000;
  1000000; 1000000; 1000000; 1000000; 1000000; 1000000; 1000000; 1000000; 1000000; 1000000; 1000000; 1000000; 1000000; 1000000; 1000000;
  1000000; 1000000; 1000000; 1000000; 1000000; 1000000; 1000000; 1000000; 1000000; 1000000; 1000000; 1000000; 1000000; 1000000; 1000000;
  1000000; 1000000; 1000000; 1000000; 1000000; 1000000; 1000000; 1000000; 1000000; 1000000; 1000000; 1000000; 1000000; 1000000; 1000000;
  1000000; 1000000; 1000000; 1000000; 1000000; 1000000; 1000000; 1000000; 1000000; 1000000; 1000000; 1000000; 1000000; 1000000; 1000000];
  [0; 0; 0; 0; 0; 0; 0; 0; 0; 0; 0; 0; 0; 0; 0; 970000; 972000; 974000; 976000; 978000; 980000; 982000; 984000; 986000; 988000; 990000;
  992000; 994000; 996000; 998000; 1000000; 1000000; 1000000; 1000000; 1000000; 1000000; 1000000; 1000000; 1000000; 1000000; 1000000;
  1000000; 1000000; 1000000; 1000000; 1000000; 1000000; 1000000; 1000000; 1000000; 1000000; 1000000; 1000000; 1000000; 1000000; 1000000;
  1000000; 1000000; 1000000; 1000000; 1000000; 1000000; 1000000; 1000000; 1000000; 1000000; 1000000; 1000000; 1000000; 1000000; 1000000;
  1000000; 1000000; 1000000; 1000000; 1000000; 1000000; 1000000; 1000000; 1000000; 1000000; 1000000; 1000000; 1000000; 1000000; 1000000;
  1000000; 1000000; 1000000; 1000000; 1000000; 1000000; 1000000; 1000000; 1000000; 1000000; 1000000; 1000000; 1000000; 1000000; 1000000;
  1000000; 1000000; 1000000; 1000000; 1000000; 1000000; 1000000; 1000000; 1000000; 1000000; 1000000; 1000000; 1000000; 1000000; 1000000;
  1000000; 1000000; 1000000; 1000000; 1000000; 1000000; 1000000; 1000000; 1000000; 1000000; 1000000; 1000000; 1000000; 1000000; 1000000;
  1000000; 1000000; 1000000; 1000000; 1000000; 1000000; 1000000; 1000000; 1000000; 1000000; 1000000; 1000000; 1000000; 1000000; 1000000;
  1000000; 1000000; 1000000; 1000000; 1000000; 1000000; 1000000; 1000000; 1000000; 1000000; 1000000; 1000000; 1000000; 1000000; 1000000;
  1000000; 1000000; 1000000; 1000000; 1000000; 1000000; 1000000; 1000000; 1000000; 1000000; 1000000; 1000000; 1000000; 1000000; 1000000;
  1000000; 1000000; 1000000; 1000000; 1000000; 1000000; 1000000; 1000000; 1000000; 1000000; 1000000; 1000000; 1000000; 1000000; 1000000;
  1000000];
  [0; 0; 0; 0; 0; 0; 0; 0; 0; 0; 0; 0; 0; 0; 0; 970000; 972000; 974000; 976000; 978000; 980000; 982000; 984000; 986000; 988000; 990000;
  992000; 994000; 996000; 998000; 1000000; 1000000; 1000000; 1000000; 1000000; 1000000; 1000000; 1000000; 1000000; 1000000; 1000000;
  1000000; 1000000; 1000000; 1000000; 1000000; 1000000; 1000000; 1000000; 1000000; 1000000; 1000000; 1000000; 1000000; 1000000; 1000000;
  1000000; 1000000; 1000000; 1000000; 1000000; 1000000; 1000000; 1000000; 1000000; 1000000; 1000000; 1000000; 1000000; 1000000; 1000000;
  1000000; 1000000; 1000000; 1000000; 1000000; 1000000; 1000000; 1000000; 1000000; 1000000; 1000000; 1000000; 1000000; 1000000; 1000000;
  1000000; 1000000; 1000000; 1000000; 1000000; 1000000; 1000000; 1000000; 1000000; 1000000; 1000000; 1000000; 1000000; 1000000; 1000000;
  1000000; 1000000; 1000000; 1000000; 1000000; 1000000; 1000000; 1000000; 1000000; 1000000; 1000000; 1000000; 1000000; 1000000; 1000000;
  1000000; 1000000; 1000000; 1000000; 1000000; 1000000; 1000000; 1000000; 1000000; 1000000; 1000000; 1000000; 1000000; 1000000; 1000000;
  1000000; 1000000; 1000000; 1000000; 1000000; 1000000; 1000000; 1000000; 1000000; 1000000; 1000000; 1000000; 1000000; 1000000; 1000000;
  1000000; 1000000; 1000000; 1000000; 1000000; 1000000; 1000000; 1000000; 1000000; 1000000; 1000000; 1000000; 1000000; 1000000; 1000000;
  1000000; 1000000; 1000000; 1000000; 1000000; 1000000; 1000000; 1000000; 1000000; 1000000; 1000000; 1000000; 1000000; 1000000; 1000000;
  1000000; 1000000; 1000000; 1000000; 1000000; 1000000; 1000000; 1000000; 1000000; 1000000; 1000000; 1000000; 1000000; 1000000; 1000000;
  1000000; 1000000];
  [0; 0; 0; 0; 0; 0; 0; 0; 0; 0; 0; 0; 0; 0; 0; 970000; 972000; 974000; 976000; 978000; 980000; 982000; 984000; 986000; 988000; 990000;
  992000; 994000; 996000; 998000; 1000000; 1000000; 1000000; 1000000; 1000000; 1000000; 1000000; 1000000; 1000000; 1000000; 1000000;
  1000000; 1000000; 1000000; 1000000; 1000000; 1000000; 1000000; 1000000; 1000000; 1000000; 1000000; 1000000; 1000000; 1000000; 1000000;
  1000000; 1000000; 1000000; 1000000; 1000000; 1000000; 1000000; 1000000; 1000000; 1000000; 1000000; 1000000; 1000000; 1000000; 1000000;
  1000000; 1000000; 1000000; 1000000; 1000000; 1000000; 1000000; 1000000; 1000000; 1000000; 1000000; 1000000; 1000000; 1000000; 1000000;
  1000000; 1000000; 1000000; 1000000; 1000000; 1000000; 1000000; 1000000; 1000000; 1000000; 1000000; 1000000; 1000000; 1000000; 1000000;
  1000000; 1000000; 1000000; 1000000; 1000000; 1000000; 1000000; 1000000; 1000000; 1000000; 1000000; 1000000; 1000000; 1000000; 1000000;
  1000000; 1000000; 1000000; 1000000; 1000000; 1000000; 1000000; 1000000; 1000000; 1000000; 1000000; 1000000; 1000000; 1000000; 1000000;
  1000000; 1000000; 1000000; 1000000; 1000000; 1000000; 1000000; 1000000; 1000000; 1000000; 1000000; 1000000; 1000000; 1000000; 1000000;
  1000000; 1000000; 1000000; 1000000; 1000000; 1000000; 1000000; 1000000; 1000000; 1000000; 1000000; 1000000; 1000000; 1000000; 1000000;
  1000000; 1000000; 1000000; 1000000; 1000000; 1000000; 1000000; 1000000; 1000000; 1000000; 1000000; 1000000; 1000000; 1000000; 1000000;
  1000000; 1000000; 1000000; 1000000; 1000000; 1000000; 1000000; 1000000; 1000000; 1000000; 1000000; 1000000; 1000000; 1000000; 1000000;
  1000000; 1000000; 1000000];
  [0; 0; 0; 0; 0; 0; 0; 0; 0; 0; 0; 0; 0; 0; 0; 970000; 972000; 974000; 976000; 978000; 980000; 982000; 984000; 986000; 988000; 990000;
  992000; 994000; 996000; 998000; 1000000; 1000000; 1000000; 1000000; 1000000; 1000000; 1000000; 1000000; 1000000; 1000000; 1000000;
  1000000; 1000000; 1000000; 1000000; 1000000; 1000000; 1000000; 1000000; 1000000; 1000000; 1000000; 1000000; 1000000; 1000000; 1000000;
  1000000; 1000000; 1000000; 1000000; 1000000; 1000000; 1000000; 1000000; 1000000; 1000000; 1000000; 1000000; 1000000; 1000000; 1000000;
  1000000; 1000000; 1000000; 1000000; 1000000; 1000000; 1000000; 1000000; 1000000; 1000000; 1000000; 1000000; 1000000; 1000000; 1000000;
  1000000; 1000000; 1000000; 1000000; 1000000; 1000000; 1000000; 1000000; 1000000; 1000000; 1000000; 1000000; 1000000; 1000000; 1000000;
  1000000; 1000000; 1000000; 1000000; 1000000; 1000000; 1000000; 1000000; 1000000; 1000000; 1000000; 1000000; 1000000; 1000000; 1000000;
  1000000; 1000000; 1000000; 1000000; 1000000; 1000000; 1000000; 1000000; 1000000; 1000000; 1000000; 1000000; 1000000; 1000000; 1000000;
  1000000; 1000000; 1000000; 1000000; 1000000; 1000000; 1000000; 1000000; 1000000; 1000000; 1000000; 1000000; 1000000; 1000000; 1000000;
  1000000; 1000000; 1000000; 1000000; 1000000; 1000000; 1000000; 1000000; 1000000; 1000000; 1000000; 1000000; 1000000; 1000000; 1000000;
  1000000; 1000000; 1000000; 1000000; 1000000; 1000000; 1000000; 1000000; 1000000; 1000000; 1000000; 1000000; 1000000; 1000000; 1000000;
  1000000; 1000000; 1000000; 1000000; 1000000; 1000000; 1000000; 1000000; 1000000; 1000000; 1000000; 1000000; 1000000; 1000000; 1000000;
  1000000; 1000000; 1000000; 1000000];
  [0; 0; 0; 0; 0; 0; 0; 0; 0; 0; 0; 0; 0; 0; 0; 970000; 972000; 974000; 976000; 978000; 980000; 982000; 984000; 986000; 988000; 990000;
  992000; 994000; 996000; 998000; 1000000; 1000000; 1000000; 1000000; 1000000; 1000000; 1000000; 1000000; 1000000; 1000000; 1000000;
  1000000; 1000000; 1000000; 1000000; 1000000; 1000000; 1000000; 1000000; 1000000; 1000000; 1000000; 1000000; 1000000; 1000000; 1000000;
  1000000; 1000000; 1000000; 1000000; 1000000; 1000000; 1000000; 1000000; 1000000; 1000000; 1000000; 1000000; 1000000; 1000000; 1000000;
  1000000; 1000000; 1000000; 1000000; 1000000; 1000000; 1000000; 1000000; 1000000; 1000000; 1000000; 1000000; 1000000; 1000000; 1000000;
  1000000; 1000000; 1000000; 1000000; 1000000; 1000000; 1000000; 1000000; 1000000; 1000000; 1000000; 1000000; 1000000; 1000000; 1000000;
  1000000; 1000000; 1000000; 1000000; 1000000; 1000000; 1000000; 1000000; 1000000; 1000000; 1000000; 1000000; 1000000; 1000000; 1000000;
  1000000; 1000000; 1000000; 1000000; 1000000; 1000000; 1000000; 1000000; 1000000; 1000000; 1000000; 1000000; 1000000; 1000000; 1000000;
  1000000; 1000000; 1000000; 1000000; 1000000; 1000000; 1000000; 1000000; 1000000; 1000000; 1000000; 1000000; 1000000; 1000000; 1000000;
  1000000; 1000000; 1000000; 1000000; 1000000; 1000000; 1000000; 1000000; 1000000; 1000000; 1000000; 1000000; 1000000; 1000000; 1000000;
  1000000; 1000000; 1000000; 1000000; 1000000; 1000000; 1000000; 1000000; 1000000; 1000000; 1000000; 1000000; 1000000; 1000000; 1000000;
  1000000; 1000000; 1000000; 1000000; 1000000; 1000000; 1000000; 1000000; 1000000; 1000000; 1000000; 1000000; 1000000; 1000000; 1000000;
  1000000; 1000000; 1000000; 1000000; 1000000];
  [0; 0; 0; 0; 0; 0; 0; 0; 0; 0; 0; 0; 0; 0; 0; 970000; 972000; 974000; 976000; 978000; 980000; 982000; 984000; 986000; 988000; 990000;
  992000; 994000; 996000; 998000; 1000000; 1000000; 1000000; 1000000; 1000000; 1000000; 1000000; 1000000; 1000000; 1000000; 1000000;
  1000000; 1000000; 1000000; 1000000; 1000000; 1000000; 1000000; 1000000; 1000000; 1000000; 1000000; 1000000; 1000000; 1000000; 1000000;
  1000000; 1000000; 1000000; 1000000; 1000000; 1000000; 1000000; 1000000; 1000000; 1000000; 1000000; 1000000; 1000000; 1000000; 1000000;
  1000000; 1000000; 1000000; 1000000; 1000000; 1000000; 1000000; 1000000; 1000000; 1000000; 1000000; 1000000; 1000000; 1000000; 1000000;
  1000000; 1000000; 1000000; 1000000; 1000000; 1000000; 1000000; 1000000; 1000000; 1000000; 1000000; 1000000; 1000000; 1000000; 1000000;
  1000000; 1000000; 1000000; 1000000; 1000000; 1000000; 1000000; 1000000; 1000000; 1000000; 1000000; 1000000; 1000000; 1000000; 1000000;
  1000000; 1000000; 1000000; 1000000; 1000000; 1000000; 1000000; 1000000; 1000000; 1000000; 1000000; 1000000; 1000000; 1000000; 1000000;
  1000000; 1000000; 1000000; 1000000; 1000000; 1000000; 1000000; 1000000; 1000000; 1000000; 1000000; 1000000; 1000000; 1000000; 1000000;
  1000000; 1000000; 1000000; 1000000; 1000000; 1000000; 1000000; 1000000; 1000000; 1000000; 1000000; 1000000; 1000000; 1000000; 1000000;
  1000000; 1000000; 1000000; 1000000; 1000000; 1000000; 1000000; 1000000; 1000000; 1000000; 1000000; 1000000; 1000000; 1000000; 1000000;
  1000000; 1000000; 1000000; 1000000; 1000000; 1000000; 1000000; 1000000; 1000000; 1000000; 1000000; 1000000; 1000000; 1000000; 1000000;
  1000000; 1000000; 1000000; 1000000; 1000000; 1000000];
  [0; 0; 0; 0; 0; 0; 0; 0; 0; 0; 0; 0; 0; 0; 0; 970000; 972000; 974000; 976000; 978000; 980000; 982000; 984000; 986000; 988000; 990000;
  992000; 994000; 996000; 998000; 1000000; 1000000; 1000000; 1000000; 1000000; 1000000; 1000000; 1000000; 1000000; 1000000; 1000000;
  1000000; 1000000; 1000000; 1000000; 1000000; 1000000; 1000000; 1000000; 1000000; 1000000; 1000000; 1000000; 1000000; 1000000; 1000000;
  1000000; 1000000; 1000000; 1000000; 1000000; 1000000; 1000000; 1000000; 1000000; 1000000; 1000000; 1000000; 1000000; 1000000; 1000000;
  1000000; 1000000; 1000000; 1000000; 1000000; 1000000; 1000000; 1000000; 1000000; 1000000; 1000000; 1000000; 1000000; 1000000; 1000000;
  1000000; 1000000; 1000000; 1000000; 1000000; 1000000; 1000000; 1000000; 1000000; 1000000; 1000000; 1000000; 1000000; 1000000; 1000000;
  1000000; 1000000; 1000000; 1000000; 1000000; 1000000; 1000000; 1000000; 1000000; 1000000; 1000000; 1000000; 1000000; 1000000; 1000000;
  1000000; 1000000; 1000000; 1000000; 1000000; 1000000; 1000000; 1000000; 1000000; 1000000; 1000000; 1000000; 1000000; 1000000; 1000000;
  1000000; 1000000; 1000000; 1000000; 1000000; 1000000; 1000000; 1000000; 1000000; 1000000; 1000000; 1000000; 1000000; 1000000; 1000000;
  1000000; 1000000; 1000000; 1000000; 1000000; 1000000; 1000000; 1000000; 1000000; 1000000; 1000000; 1000000; 1000000; 1000000; 1000000;
  1000000; 1000000; 1000000; 1000000; 1000000; 1000000; 1000000; 1000000; 1000000; 1000000; 1000000; 1000000; 1000000; 1000000; 1000000;
  1000000; 1000000; 1000000; 1000000; 1000000; 1000000; 1000000; 1000000; 1000000; 1000000; 1000000; 1000000; 1000000; 1000000; 1000000;
  1000000; 1000000; 1000000; 1000000; 1000000; 1000000; 1000000];
  [0; 0; 0; 0; 0; 0; 0; 0; 0; 0; 0; 0; 0; 0; 0; 970000; 972000; 974000; 976000; 978000; 980000; 982000; 984000; 986000; 988000; 990000;
  992000; 994000; 996000; 998000; 1000000; 1000000; 1000000; 1000000; 1000000; 1000000; 1000000; 1000000; 1000000; 1000000; 1000000;
  1000000; 1000000; 1000000; 1000000; 1000000; 1000000; 1000000; 1000000; 1000000; 1000000; 1000000; 1000000; 1000000; 1000000; 1000000;
  1000000; 1000000; 1000000; 1000000; 1000000; 1000000; 1000000; 1000000; 1000000; 1000000; 1000000; 1000000; 1000000; 1000000; 1000000;
  1000000; 1000000; 1000000; 1000000; 1000000; 1000000; 1000000; 1000000; 1000000; 1000000; 1000000; 1000000; 1000000; 1000000; 1000000;
  1000000; 1000000; 1000000; 1000000; 1000000; 1000000; 1000000; 1000000; 1000000; 1000000; 1000000; 1000000; 1000000; 1000000; 1000000;
  1000000; 1000000; 1000000; 1000000; 1000000; 1000000; 1000000; 1000000; 1000000; 1000000; 1000000; 1000000; 1000000; 1000000; 1000000;
  1000000; 1000000; 1000000; 1000000; 1000000; 1000000; 1000000; 1000000; 1000000; 1000000; 1000000; 1000000; 1000000; 1000000; 1000000;
  1000000; 1000000; 1000000; 1000000; 1000000; 1000000; 1000000; 1000000; 1000000; 1000000; 1000000; 1000000; 1000000; 1000000; 1000000;
  1000000; 1000000; 1000000; 1000000; 1000000; 1000000; 1000000; 1000000; 1000000; 1000000; 1000000; 1000000; 1000000; 1000000; 1000000;
  1000000; 1000000; 1000000; 1000000; 1000000; 1000000; 1000000; 1000000; 1000000; 1000000; 1000000; 1000000; 1000000; 1000000; 1000000;
  1000000; 1000000; 1000000; 1000000; 1000000; 1000000; 1000000; 1000000; 1000000; 1000000; 1000000; 1000000; 1000000; 1000000; 1000000;
  1000000; 1000000; 1000000; 1000000; 1000000; 1000000; 1000000; 1000000];
  [0; 0; 0; 0; 0; 0; 0; 0; 0; 0; 0; 0; 0; 0; 0; 970000; 972000; 974000; 976000; 978000; 980000; 982000; 984000; 986000; 988000; 990000;
  992000; 994000; 996000; 998000; 1000000; 1000000; 1000000; 1000000; 1000000; 1000000; 1000000; 1000000; 1000000; 1000000; 1000000;
  1000000; 1000000; 1000000; 1000000; 1000000; 1000000; 1000000; 1000000; 1000000; 1000000; 1000000; 1000000; 1000000; 1000000; 1000000;
  1000000; 1000000; 1000000; 1000000; 1000000; 1000000; 1000000; 1000000; 1000000; 1000000; 1000000; 1000000; 1000000; 1000000; 1000000;
  1000000; 1000000; 1000000; 1000000; 1000000; 1000000; 1000000; 1000000; 1000000; 1000000; 1000000; 1000000; 1000000; 1000000; 1000000;
  1000000; 1000000; 1000000; 1000000; 1000000; 1000000; 1000000; 1000000; 1000000; 1000000; 1000000; 1000000; 1000000; 1000000; 1000000;
  1000000; 1000000; 1000000; 1000000; 1000000; 1000000; 1000000; 1000000; 1000000; 1000000; 1000000; 1000000; 1000000; 1000000; 1000000;
  1000000; 1000000; 1000000; 1000000; 1000000; 1000000; 1000000; 1000000; 1000000; 1000000; 1000000; 1000000; 1000000; 1000000; 1000000;
  1000000; 1000000; 1000000; 1000000; 1000000; 1000000; 1000000; 1000000; 1000000; 1000000; 1000000; 1000000; 1000000; 1000000; 1000000;
  1000000; 1000000; 1000000; 1000000; 1000000; 1000000; 1000000; 1000000; 1000000; 1000000; 1000000; 1000000; 1000000; 1000000; 1000000;
  1000000; 1000000; 1000000; 1000000; 1000000; 1000000; 1000000; 1000000; 1000000; 1000000; 1000000; 1000000; 1000000; 1000000; 1000000;
  1000000; 1000000; 1000000; 1000000; 1000000; 1000000; 1000000; 1000000; 1000000; 1000000; 1000000; 1000000; 1000000; 1000000; 1000000;
  1000000; 1000000; 1000000; 1000000; 1000000; 1000000; 1000000; 1000000; 1000000];
  [0; 0; 0; 0; 0; 0; 0; 0; 0; 0; 0; 0; 0; 0; 0; 970000; 972000; 974000; 976000; 978000; 980000; 982000; 984000; 986000; 988000; 990000;
  992000; 994000; 996000; 998000; 1000000; 1000000; 1000000; 1000000; 1000000; 1000000; 1000000; 1000000; 1000000; 1000000; 1000000;
  1000000; 1000000; 1000000; 1000000; 1000000; 1000000; 1000000; 1000000; 1000000; 1000000; 1000000; 1000000; 1000000; 1000000; 1000000;
  1000000; 1000000; 1000000; 1000000; 1000000; 1000000; 1000000; 1000000; 1000000; 1000000; 1000000; 1000000; 1000000; 1000000; 1000000;
  1000000; 1000000; 1000000; 1000000; 1000000; 1000000; 1000000; 1000000; 1000000; 1000000; 1000000; 1000000; 1000000; 1000000; 1000000;
  1000000; 1000000; 1000000; 1000000; 1000000; 1000000; 1000000; 1000000; 1000000; 1000000; 1000000; 1000000; 1000000; 1000000; 1000000;
  1000000; 1000000; 1000000; 1000000; 1000000; 1000000; 1000000; 1000000; 1000000; 1000000; 1000000; 1000000; 1000000; 1000000; 1000000;
  1000000; 1000000; 1000000; 1000000; 1000000; 1000000; 1000000; 1000000; 1000000; 1000000; 1000000; 1000000; 1000000; 1000000; 1000000;
  1000000; 1000000; 1000000; 1000000; 1000000; 1000000; 1000000; 1000000; 1000000; 1000000; 1000000; 1000000; 1000000; 1000000; 1000000;
  1000000; 1000000; 1000000; 1000000; 1000000; 1000000; 1000000; 1000000; 1000000; 1000000; 1000000; 1000000; 1000000; 1000000; 1000000;
  1000000; 1000000; 1000000; 1000000; 1000000; 1000000; 1000000; 1000000; 1000000; 1000000; 1000000; 1000000; 1000000; 1000000; 1000000;
  1000000; 1000000; 1000000; 1000000; 1000000; 1000000; 1000000; 1000000; 1000000; 1000000; 1000000; 1000000; 1000000; 1000000; 1000000;
  1000000; 1000000; 1000000; 1000000; 1000000; 1000000; 1000000; 1000000; 1000000; 1000000]
].
Definition eff_HallPinskyCb : list N := concat rows_HallPinskyCb.
