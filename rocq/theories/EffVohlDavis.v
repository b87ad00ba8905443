(** Collision efficiencies of src/detail/kernel_definitions/vohl_davis_no_waals_efficiencies.hpp:18-2049, the array arr, in millionths; row M has the
    entries for the greater radius number M and smaller radii number 0 to M.  Converted from the source by a script. *)
From Coq Require Import List NArith.
Import ListNotations.
Local Open Scope N_scope.

Definition rows_VohlDavis : list (list N) := [
  [0];
  [0; 0];
  [0; 0; 21800];
  [0; 0; 14736; 24245];
  [0; 0; 9316; 19473; 25568];
  [0; 0; 10091; 15382; 23103; 26963];
  [0; 0; 11220; 15029; 20001; 24974; 26963];
  [0; 0; 11883; 15712; 19293; 22628; 25963; 26963];
  [0; 0; 12151; 16412; 20672; 22638; 24604; 26570; 26963];
  [0; 0; 0; 16672; 20884; 23542; 24645; 25749; 26853; 26963];
  [0; 0; 0; 17416; 22189; 26963; 26963; 26963; 26963; 26963; 26963];
  [0; 0; 0; 17134; 22275; 27416; 29810; 29457; 29105; 28752; 28435; 28435];
  [0; 0; 0; 16714; 22259; 27804; 33349; 32325; 31301; 30277; 29254; 28435; 28435];
  [0; 0; 0; 0; 21674; 27072; 32470; 34521; 33226; 31931; 30636; 29341; 28435; 28435];
  [0; 0; 0; 0; 21231; 26516; 31802; 37088; 35543; 33997; 32452; 30907; 29362; 28435; 28435];
  [0; 0; 0; 0; 20903; 26105; 31308; 36511; 38222; 36442; 34663; 32883; 31104; 29324; 28435; 28435];
  [0; 0; 0; 0; 20672; 25816; 30959; 36103; 41246; 39244; 37243; 35241; 33239; 31237; 29235; 28435; 28435];
  [0; 0; 0; 0; 0; 25629; 30734; 35839; 40945; 42390; 40175; 37959; 35744; 33529; 31314; 29099; 28435; 28435];
  [0; 0; 0; 0; 0; 25532; 30617; 35702; 40786; 45871; 43665; 41459; 39252; 37046; 34840; 32634; 30428; 29986; 29986];
  [0; 0; 0; 0; 0; 26907; 32264; 37621; 42979; 48336; 49739; 47187; 44636; 42084; 39532; 36981; 34429; 31878; 31623; 31623];
  [0; 0; 0; 0; 0; 28435; 34095; 39754; 45414; 51074; 56734; 53811; 50888; 47965; 45041; 42118; 39195; 36272; 33349; 33349; 33349];
  [0; 0; 0; 0; 0; 0; 36611; 43262; 49912; 56563; 63214; 64786; 61280; 57774; 54268; 50762; 47255; 43749; 40243; 37088; 37088; 37088];
  [0; 0; 0; 0; 0; 0; 41198; 49418; 57637; 65857; 74077; 82297; 77390; 72482; 67575; 62667; 57760; 52853; 47945; 43038; 39112; 39112;
  39112];
  [0; 0; 0; 0; 0; 0; 43649; 53262; 62875; 72488; 82100; 91713; 93638; 87875; 82111; 76348; 70585; 64821; 59058; 53295; 47532; 43497;
  43497; 43497];
  [0; 0; 0; 0; 0; 0; 48374; 61294; 74214; 87133; 100053; 112973; 125893; 117818; 109743; 101668; 93593; 85518; 77444; 69369; 61294; 53219;
  48374; 48374; 48374];
  [0; 0; 0; 0; 0; 0; 0; 65060; 80077; 95093; 110109; 125125; 140141; 142957; 133572; 124186; 114801; 105416; 96031; 86646; 77261; 67876;
  58491; 53798; 53798; 53798];
  [0; 0; 0; 0; 0; 0; 0; 73865; 95403; 116940; 138478; 160016; 181554; 203092; 189631; 176169; 162708; 149247; 135786; 122325; 108864;
  95403; 81941; 68480; 63096; 63096; 63096];
  [0; 0; 0; 0; 0; 0; 0; 80562; 106813; 133063; 159313; 185563; 211813; 238064; 242808; 226047; 209286; 192525; 175764; 159003; 142243;
  125482; 108721; 91960; 75199; 70170; 70170; 70170];
  [0; 0; 0; 0; 0; 0; 0; 82297; 117345; 152392; 187440; 222488; 257535; 292583; 327631; 305346; 283061; 260776; 238491; 216206; 193920;
  171635; 149350; 127065; 104780; 82495; 78038; 78038; 78038];
  [0; 0; 0; 0; 0; 0; 0; 0; 121807; 162183; 202559; 242935; 283311; 323687; 364063; 371236; 345206; 319175; 293145; 267114; 241083; 215053;
  189022; 162992; 136961; 110931; 84900; 82297; 82297; 82297];
  [0; 0; 0; 0; 0; 0; 0; 0; 135697; 180691; 225686; 270680; 315674; 360668; 405663; 450657; 420334; 390012; 359690; 329367; 299045; 268723;
  238400; 208078; 177755; 147433; 117111; 86788; 86788; 86788; 86788];
  [0; 0; 0; 1679; 24274; 62281; 128671; 208645; 274129; 332516; 383226; 422613; 460032; 490484; 515226; 539387; 556806; 560000; 560000;
  560000; 560000; 559129; 554484; 541710; 524290; 503935; 488677; 475129; 467613; 475903; 520806; 626000];
  [0; 0; 0; 2170; 26000; 68900; 136600; 217500; 286000; 346000; 395000; 436500; 472000; 505000; 529000; 551500; 572000; 580000; 580000;
  580000; 580000; 580000; 576000; 578000; 556000; 544000; 529000; 515500; 508000; 507000; 526000; 582500; 712000];
  [0; 0; 0; 2489; 27288; 73100; 143855; 225455; 297939; 359455; 408485; 451000; 485727; 518455; 544394; 565091; 584515; 597242; 600000;
  600000; 600000; 600000; 600000; 593848; 598091; 576879; 564788; 555091; 543667; 542303; 548000; 576879; 645000; 798000];
  [0; 0; 0; 2652; 27471; 77235; 150494; 232941; 310235; 371412; 422588; 465882; 501059; 531647; 559412; 580353; 599176; 614000; 620000;
  620000; 620000; 620000; 620000; 619647; 615412; 612588; 598471; 586824; 582118; 574235; 577765; 590471; 628471; 708235; 884000];
  [0; 0; 0; 2671; 26643; 80357; 156786; 240000; 322857; 384286; 437143; 480000; 516429; 546429; 575000; 597143; 614286; 629286; 637857;
  640000; 640000; 640000; 640000; 640000; 637857; 637857; 629286; 620714; 610000; 609286; 606429; 614286; 634286; 680714; 772143; 970000];
  [0; 0; 0; 2560; 24889; 81556; 161200; 247022; 333333; 398000; 452444; 495556; 532000; 562667; 589333; 613333; 630889; 646444; 656000;
  660000; 660000; 660000; 660000; 660000; 660000; 656889; 659556; 648000; 643111; 636444; 637333; 639556; 651778; 679333; 733555; 836666;
  1056000];
  [0; 0; 0; 2328; 22284; 80986; 163576; 253492; 340541; 410595; 466541; 511676; 548108; 580243; 605108; 629324; 648865; 662919; 673757;
  678622; 680000; 680000; 680000; 680000; 680000; 679919; 677324; 678297; 670189; 665892; 663730; 666514; 673541; 690162; 725513; 786946;
  901757; 1142000];
  [0; 0; 0; 1985; 18895; 78789; 164074; 259453; 347368; 423474; 480316; 527158; 564211; 596526; 622211; 645368; 666842; 680737; 693368;
  698000; 700000; 700000; 700000; 700000; 700000; 700000; 699263; 698842; 697158; 692947; 689684; 691790; 696737; 708316; 729368; 772737;
  840842; 967368; 1228000];
  [0; 0; 0; 1540; 14782; 75090; 162838; 264944; 353846; 436615; 494821; 543282; 581538; 613000; 640538; 662077; 683205; 699795; 711077;
  717974; 719513; 720000; 720000; 720000; 720000; 720000; 720000; 719308; 719718; 717769; 716231; 714410; 720564; 727923; 743820; 769333;
  820923; 895205; 1033460; 1314000];
  [0; 0; 100; 1000; 10000; 70000; 160000; 270000; 360000; 450000; 510000; 560000; 600000; 630000; 660000; 680000; 700000; 720000; 730000;
  740000; 740000; 740000; 740000; 740000; 740000; 740000; 740000; 740000; 740000; 740000; 740000; 740000; 740000; 750000; 760000; 780000;
  810000; 870000; 950000; 1100000; 1400000];
  [0; 0; 0; 3643; 26551; 83439; 169537; 273390; 364439; 450683; 514610; 563024; 602024; 631781; 658610; 679732; 697780; 716122; 729610;
  739366; 744512; 745488; 746463; 747439; 748415; 749390; 750366; 751341; 752317; 753293; 754268; 755244; 756220; 758756; 767707; 779220;
  801902; 836146; 899732; 994024; 1177800; 1490000];
  [0; 0; 0; 5926; 40152; 96762; 179143; 278000; 369714; 453143; 520381; 568476; 606000; 635524; 659333; 680857; 697048; 713429; 729429;
  738952; 748095; 750000; 751905; 753810; 755714; 757619; 759524; 761429; 763333; 765238; 767143; 769048; 770952; 772857; 777048; 785333;
  798857; 824095; 862571; 930857; 1040950; 1256190; 1580000];
  [0; 0; 0; 7873; 51009; 109977; 188814; 283744; 375767; 457256; 527233; 576186; 611791; 641093; 662023; 682953; 697698; 712116; 727651;
  738744; 748047; 753605; 756395; 759186; 761977; 764767; 767558; 770349; 773140; 775930; 778721; 781512; 784302; 787093; 789884; 794907;
  802884; 818884; 846558; 889256; 963279; 1090580; 1335120; 1670000];
  [0; 0; 0; 9507; 59309; 123091; 198545; 290545; 382545; 462909; 535091; 586000; 618727; 646545; 666545; 684727; 699636; 712364; 725818;
  738727; 747818; 756364; 760000; 763636; 767273; 770909; 774545; 778182; 781818; 785455; 789091; 792727; 796364; 800000; 803636; 807273;
  812364; 820364; 839273; 869273; 916182; 996909; 1142730; 1414550; 1760000];
  [0; 0; 0; 10850; 65222; 136111; 208333; 298333; 390000; 470000; 541111; 592778; 626667; 652778; 672778; 688333; 702778; 713889; 725000;
  738333; 747778; 756667; 762778; 767222; 771667; 776111; 780556; 785000; 789444; 793889; 798333; 802778; 807222; 811667; 816111; 820556;
  825000; 829444; 837778; 860000; 892222; 943333; 1031670; 1197220; 1494440; 1850000];
  [0; 0; 0; 11920; 68904; 149043; 218174; 307043; 397478; 476348; 546261; 600522; 636609; 660609; 680609; 693652; 706696; 716609; 726174;
  737304; 747913; 756609; 764783; 770000; 775217; 780435; 785652; 790870; 796087; 801304; 806522; 811739; 816957; 822174; 827391; 832609;
  837826; 842696; 846435; 855130; 881043; 915391; 970696; 1067480; 1253910; 1574780; 1940000];
  [0; 0; 0; 12735; 70498; 161894; 228064; 316574; 404277; 483362; 552808; 609170; 648426; 669936; 689085; 700575; 711213; 720447; 728532;
  737213; 748213; 756723; 765234; 772021; 777979; 783936; 789894; 795851; 801808; 807766; 813723; 819681; 825638; 831596; 837553; 843511;
  849468; 855426; 860021; 863915; 873447; 902383; 938766; 998255; 1104280; 1312660; 1655530; 2030000];
  [0; 0; 0; 13310; 70133; 174667; 238000; 326333; 412000; 491000; 560667; 618667; 662000; 680333; 697333; 709000; 717333; 725333; 732000;
  738667; 748000; 757000; 765333; 773333; 780000; 786667; 793333; 800000; 806667; 813333; 820000; 826667; 833333; 840000; 846667; 853333;
  860000; 866667; 873333; 877000; 881333; 894000; 924000; 962333; 1026000; 1142000; 1373330; 1736670; 2120000];
  [0; 0; 0; 13661; 67931; 187367; 251041; 336143; 420592; 499224; 569755; 628531; 670592; 692326; 707000; 718837; 724959; 731082; 736510;
  741816; 748592; 757429; 765592; 773755; 781327; 788674; 796020; 803367; 810714; 818061; 825408; 832755; 840102; 847449; 854796; 862143;
  869490; 876837; 884184; 891531; 893653; 898694; 914857; 946898; 986082; 1053920; 1180590; 1435820; 1818160; 2210000];
  [0; 0; 1880; 13800; 64000; 200000; 264000; 346000; 430000; 508000; 580000; 636000; 680000; 706000; 718000; 730000; 734000; 738000;
  742000; 746000; 750000; 758000; 766000; 774000; 782000; 790000; 798000; 806000; 814000; 822000; 830000; 838000; 846000; 854000; 862000;
  870000; 878000; 886000; 894000; 902000; 910000; 910000; 916000; 936000; 970000; 1010000; 1082000; 1220000; 1500000; 1900000; 2300000];
  [0; 0; 2892; 20080; 71190; 204524; 277353; 355714; 437899; 512899; 580126; 635700; 680714; 712437; 725042; 737101; 743656; 747857;
  752059; 756261; 760462; 766513; 773796; 781106; 788950; 796359; 803641; 810924; 818207; 825490; 832773; 840056; 847339; 854622; 861905;
  869188; 876471; 883753; 891036; 898740; 906583; 913081; 914202; 922577; 945196; 977899; 1019500; 1100170; 1252940; 1547340; 1946640;
  2350000];
  [0; 0; 3791; 24967; 78791; 209560; 290220; 366044; 447143; 518571; 582088; 636813; 682308; 718571; 731758; 744176; 753187; 757582;
  761978; 766374; 770769; 775604; 782198; 788791; 796044; 803407; 810000; 816593; 823187; 829780; 836374; 842967; 849560; 856154; 862747;
  869341; 875934; 882527; 889121; 895714; 903407; 911099; 916593; 919560; 929451; 953846; 985165; 1030660; 1119670; 1286810; 1594510;
  1993410; 2400000];
  [0; 0; 4584; 28540; 86779; 215081; 302628; 376954; 457655; 525040; 585782; 639259; 684730; 719232; 738167; 751226; 762601; 767183;
  771766; 776348; 780930; 785512; 791173; 797102; 803275; 810822; 817035; 822965; 828895; 834825; 840755; 846685; 852615; 858544; 864474;
  870404; 876334; 882264; 888194; 894124; 900458; 908005; 915553; 920512; 925822; 936604; 961981; 991833; 1043400; 1140430; 1321560;
  1641510; 2040300; 2450000];
  [0; 0; 5277; 30873; 98069; 221058; 314603; 388413; 467778; 532857; 591111; 642963; 686349; 720741; 744286; 758254; 770423; 776667;
  781429; 786190; 790952; 795714; 800688; 805979; 811270; 818042; 824709; 830000; 835291; 840582; 845873; 851164; 856455; 861746; 867037;
  872328; 877619; 882910; 888201; 893492; 898783; 905132; 912540; 919947; 924815; 932381; 945291; 969630; 997937; 1057620; 1166670;
  1357140; 1688360; 2087300; 2500000];
  [0; 0; 5875; 32032; 109591; 227468; 326169; 400390; 477792; 541948; 597987; 647857; 688377; 723052; 750130; 764935; 777467; 786039;
  790974; 795909; 800844; 805779; 810714; 815390; 820065; 825390; 832662; 837662; 842338; 847013; 851688; 856364; 861039; 865714; 870390;
  875065; 879740; 884416; 889091; 893766; 898442; 903117; 909740; 917013; 924286; 929481; 939221; 954221; 976818; 1003510; 1073250;
  1196100; 1393510; 1735060; 2134420; 2550000];
  [0; 0; 6384; 32082; 119633; 234286; 337347; 412857; 488367; 552245; 606327; 652245; 691633; 726122; 755714; 771020; 784490; 795306;
  800408; 805510; 810612; 815714; 820816; 825306; 829388; 833469; 840000; 845918; 850000; 854082; 858163; 862245; 866327; 870408; 874490;
  878571; 882653; 886735; 890816; 894898; 898980; 903061; 907143; 914286; 921429; 928367; 934490; 946327; 962653; 983571; 1008570;
  1090200; 1226530; 1430610; 1781630; 2181630; 2600000];
  [0; 0; 6807; 31079; 128272; 241491; 348158; 425351; 499474; 563684; 616053; 658158; 696053; 729912; 757982; 776842; 791491; 803772;
  809737; 815000; 820263; 825526; 830790; 835702; 839211; 842719; 847456; 854474; 858246; 861754; 865263; 868772; 872281; 875789; 879298;
  882807; 886316; 889825; 893333; 896842; 900351; 903860; 907368; 911754; 918772; 925789; 932807; 939825; 953684; 970614; 990351; 1013160;
  1108420; 1257890; 1468420; 1828070; 2228950; 2650000];
  [0; 0; 7150; 29079; 135581; 249064; 358621; 437438; 511084; 576207; 625468; 665517; 701576; 734089; 760985; 782414; 798473; 810788;
  818966; 824384; 829803; 835222; 840640; 846059; 849507; 852463; 855419; 861921; 867044; 870000; 872956; 875911; 878867; 881823; 884778;
  887734; 890690; 893645; 896601; 899557; 902512; 905468; 908424; 911379; 916305; 923202; 930099; 937586; 946503; 961281; 978128; 996601;
  1017290; 1127830; 1290150; 1506900; 1874380; 2276350; 2700000];
  [0; 0; 7416; 26132; 141628; 256985; 368753; 449140; 523172; 589758; 635763; 674249; 708148; 738172; 764685; 787748; 804455; 817785;
  828099; 833668; 839237; 844806; 850375; 855944; 860254; 862676; 865097; 869479; 876259; 878789; 881211; 883632; 886053; 888475; 890896;
  893317; 895738; 898160; 900581; 903002; 905424; 907845; 910266; 912688; 915109; 920799; 927579; 934358; 942688; 953608; 969104; 985218;
  1002350; 1020990; 1148380; 1323240; 1546010; 1920580; 2323850; 2750000];
  [0; 0; 7610; 22286; 146476; 265238; 378571; 460476; 535714; 604286; 647143; 684286; 715714; 743333; 769048; 792857; 810000; 824762;
  837143; 842857; 848571; 854286; 860000; 865714; 871429; 873333; 875238; 877143; 883810; 888095; 890000; 891905; 893809; 895714; 897619;
  899524; 901429; 903333; 905238; 907143; 909048; 910952; 912857; 914762; 916667; 918571; 925238; 931905; 938571; 948095; 960952; 977143;
  991905; 1007620; 1024290; 1170000; 1357140; 1585710; 1966670; 2371430; 2800000];
  [0; 0; 7734; 23430; 150184; 273806; 385281; 471464; 548688; 615667; 659555; 695562; 723665; 749520; 774040; 796522; 815316; 831721;
  844133; 851955; 857810; 863665; 869520; 875375; 881230; 884415; 885820; 887225; 891464; 897892; 899297; 900703; 902108; 903513; 904918;
  906323; 907728; 909133; 910539; 911944; 913349; 914754; 916159; 917564; 918970; 920375; 923068; 929625; 936183; 943489; 953794; 968525;
  984859; 998208; 1012440; 1040890; 1192650; 1391800; 1633260; 2012650; 2419090; 2850000];
  [0; 0; 7793; 24475; 152806; 282673; 392350; 482120; 562074; 627512; 672949; 708018; 732903; 756682; 779631; 800829; 820415; 838387;
  851106; 860968; 866958; 872949; 878940; 884931; 890922; 895899; 896820; 897742; 899217; 905668; 909078; 910000; 910922; 911843; 912765;
  913687; 914608; 915530; 916452; 917373; 918295; 919217; 920138; 921060; 921982; 922903; 923825; 927512; 933963; 940415; 948710; 959770;
  976313; 992166; 1004150; 1016820; 1058660; 1216270; 1427190; 1680650; 2058530; 2466820; 2900000];
  [0; 0; 7789; 25426; 154396; 291825; 399762; 492460; 575850; 639796; 687279; 721293; 743367; 764773; 785635; 805748; 825306; 843673;
  858061; 869898; 876020; 882143; 888265; 894388; 900510; 906633; 908220; 908673; 909127; 913413; 919320; 919773; 920227; 920680; 921134;
  921587; 922041; 922494; 922948; 923401; 923855; 924308; 924762; 925215; 925669; 926122; 926576; 927029; 931905; 938254; 944603; 954218;
  966168; 984308; 999082; 1009740; 1020790; 1077550; 1240820; 1463260; 1727890; 2104310; 2514630; 2950000];
  [0; 0; 7725; 26287; 155000; 301250; 407500; 502500; 590000; 652500; 702500; 733750; 755000; 773750; 792500; 811250; 830000; 848750;
  865000; 877500; 885000; 891250; 897500; 903750; 910000; 916250; 920000; 920000; 920000; 921250; 927500; 930000; 930000; 930000; 930000;
  930000; 930000; 930000; 930000; 930000; 930000; 930000; 930000; 930000; 930000; 930000; 930000; 930000; 930000; 936250; 942500; 948750;
  960000; 973750; 992500; 1005630; 1015000; 1024370; 1097500; 1266250; 1500000; 1775000; 2150000; 2562500; 3000000];
  [0; 0; 10318; 36730; 160564; 310256; 413641; 507179; 590872; 654103; 706820; 736769; 759538; 778000; 796051; 813949; 831590; 849231;
  866154; 878051; 886974; 892923; 898872; 904872; 911026; 917180; 923333; 923333; 923333; 923333; 927641; 932667; 932667; 932667; 932667;
  932667; 932667; 932667; 932667; 932667; 932872; 933077; 933282; 933333; 933333; 933333; 933436; 933641; 933846; 935436; 941180; 947179;
  953333; 965231; 979282; 996923; 1008100; 1017130; 1026150; 1117640; 1291590; 1543080; 1833330; 2206670; 2623590; 3066670];
  [0; 0; 12435; 46459; 166121; 319697; 420303; 512667; 592667; 656303; 711535; 740222; 764182; 782364; 799899; 817152; 833717; 850283;
  866848; 878950; 889131; 894788; 900444; 906101; 912121; 918182; 924242; 926667; 926667; 926667; 928242; 933495; 935333; 935333; 935333;
  935333; 935333; 935333; 935333; 935333; 935495; 935899; 936303; 936667; 936667; 936667; 936667; 936990; 937394; 937798; 940626; 945879;
  951818; 958929; 970242; 984444; 1001010; 1010490; 1019170; 1027860; 1138730; 1317720; 1587680; 1891520; 2263230; 2684850; 3133330];
  [0; 0; 14098; 55507; 171672; 328090; 427463; 518925; 595343; 659075; 715194; 744090; 768925; 786836; 804030; 820746; 836358; 851881;
  867403; 880179; 890925; 896836; 902209; 907582; 913284; 919254; 925224; 930000; 930000; 930000; 930000; 934060; 938000; 938000; 938000;
  938000; 938000; 938000; 938000; 938000; 938000; 938478; 939075; 939672; 940000; 940000; 940000; 940060; 940657; 941254; 941851; 945582;
  950448; 956418; 964298; 975045; 989254; 1004420; 1012780; 1021130; 1029490; 1160720; 1347160; 1633730; 1949550; 2319700; 2746270;
  3200000];
  [0; 0; 15326; 63903; 177216; 333686; 435098; 525922; 598863; 662392; 716510; 748353; 773765; 791412; 808431; 824510; 839490; 854000;
  868510; 881725; 891922; 899059; 904157; 909255; 914510; 920392; 926275; 932157; 933333; 933333; 933333; 935059; 939373; 940667; 940667;
  940667; 940667; 940667; 940667; 940667; 940667; 940824; 941608; 942392; 943176; 943333; 943333; 943333; 943647; 944431; 945216; 946000;
  950314; 955098; 960980; 969451; 979647; 993725; 1006940; 1014980; 1023020; 1031060; 1183570; 1383140; 1681180; 2007450; 2376080;
  2807840; 3266670];
  [0; 0; 16139; 71675; 182754; 339275; 443188; 533623; 603188; 666232; 718406; 752995; 778116; 796087; 813092; 828551; 843092; 856618;
  870145; 883575; 893237; 901449; 906280; 911111; 915942; 921594; 927391; 933188; 936667; 936667; 936667; 936667; 940338; 943333; 943333;
  943333; 943333; 943333; 943333; 943333; 943333; 943333; 943913; 944879; 945845; 946667; 946667; 946667; 946667; 947343; 948309; 949275;
  950966; 954831; 959710; 965507; 974396; 984348; 997874; 1009370; 1017100; 1024830; 1032560; 1207250; 1420770; 1729950; 2065220; 2432370;
  2869570; 3333330];
  [0; 0; 16554; 78851; 188286; 344857; 451714; 542000; 608286; 670571; 720857; 758000; 782000; 800857; 818000; 832857; 847143; 859714;
  872286; 884857; 894857; 904000; 908571; 913143; 917714; 922857; 928571; 934286; 940000; 940000; 940000; 940000; 941714; 945143; 946000;
  946000; 946000; 946000; 946000; 946000; 946000; 946000; 946000; 947143; 948286; 949429; 950000; 950000; 950000; 950000; 951143; 952286;
  953429; 955714; 959143; 964286; 970000; 979143; 989143; 1001710; 1011710; 1019140; 1026570; 1034000; 1231710; 1460000; 1780000; 2122860;
  2488570; 2931430; 3400000];
  [0; 0; 16589; 85456; 193812; 350432; 460657; 548545; 614122; 675390; 723840; 763352; 786263; 805718; 822620; 837418; 851624; 863268;
  874911; 886554; 896770; 905408; 911023; 915343; 919662; 924178; 929812; 935446; 941080; 943333; 943333; 943333; 943484; 946488; 948667;
  948667; 948667; 948667; 948667; 948667; 948667; 948667; 948667; 949193; 950507; 951822; 953136; 953333; 953333; 953333; 953728; 955042;
  956357; 957671; 960254; 963258; 968826; 975061; 983700; 993615; 1005260; 1013970; 1021110; 1028240; 1054870; 1256940; 1500750; 1831270;
  2180380; 2544690; 2993430; 3466670];
  [0; 0; 16258; 91513; 199333; 356000; 470000; 555556; 620667; 680667; 727333; 769037; 790889; 810667; 827333; 842222; 855926; 867259;
  878000; 888741; 898963; 907111; 913630; 917704; 921778; 925852; 931111; 936667; 942222; 946667; 946667; 946667; 946667; 948222; 950815;
  951333; 951333; 951333; 951333; 951333; 951333; 951333; 951333; 951333; 952519; 954000; 955482; 956667; 956667; 956667; 956667; 957556;
  959037; 960519; 962000; 964593; 967778; 973333; 979926; 988074; 997778; 1008520; 1016150; 1023000; 1029850; 1076590; 1282890; 1542960;
  1883700; 2237780; 2600740; 3055550; 3533330];
  [0; 0; 15577; 97045; 204849; 361562; 479726; 563014; 627890; 684877; 731315; 775041; 795863; 815699; 832137; 847260; 860411; 871671;
  881534; 891397; 901260; 909096; 916384; 920219; 924055; 927890; 932466; 937945; 943425; 948904; 950000; 950000; 950000; 950329; 952521;
  954000; 954000; 954000; 954000; 954000; 954000; 954000; 954000; 954000; 954329; 955973; 957616; 959260; 960000; 960000; 960000; 960000;
  961479; 963123; 964767; 966548; 968740; 972329; 977808; 984603; 992274; 1001640; 1011510; 1018250; 1024820; 1031400; 1099120; 1309530;
  1586580; 1937260; 2295070; 2656710; 3117810; 3600000];
  [0; 0; 14560; 102074; 210360; 367117; 489820; 570901; 635766; 689820; 735766; 779009; 801171; 820811; 837027; 852522; 865135; 876486;
  885495; 894504; 903514; 911351; 918559; 922883; 926486; 930090; 933874; 939279; 944685; 950090; 953333; 953333; 953333; 953333; 954595;
  956396; 956667; 956667; 956667; 956667; 956667; 956667; 956667; 956667; 956667; 957748; 959550; 961351; 963153; 963333; 963333; 963333;
  963694; 965496; 967297; 969099; 970901; 972703; 976847; 982252; 989099; 996306; 1005220; 1013960; 1020270; 1026580; 1032880; 1122430;
  1336850; 1631530; 1991890; 2352250; 2712610; 3180180; 3666670];
  [0; 0; 13221; 106619; 215867; 372667; 500267; 579200; 644267; 695467; 740667; 782267; 806800; 825644; 842000; 858000; 870089; 881689;
  889867; 898044; 906222; 913867; 920622; 925689; 929067; 932444; 935822; 940667; 946000; 951333; 956667; 956667; 956667; 956667; 957022;
  958444; 959333; 959333; 959333; 959333; 959333; 959333; 959333; 959333; 959333; 959333; 961289; 963244; 965200; 966667; 966667; 966667;
  966667; 967644; 969600; 971556; 973511; 975067; 976489; 981333; 986667; 993422; 1000360; 1008530; 1016180; 1022220; 1028270; 1034310;
  1146490; 1364800; 1677780; 2047550; 2409330; 2768440; 3242670; 3733330];
  [0; 0; 11573; 110699; 221368; 378211; 511053; 587895; 653368; 701789; 746000; 786000; 812737; 830632; 847053; 862842; 875263; 886842;
  894632; 902000; 909368; 916632; 922947; 928632; 931789; 934947; 938105; 942105; 947368; 952632; 957895; 960000; 960000; 960000; 960000;
  960842; 961895; 962000; 962000; 962000; 962000; 962000; 962000; 962000; 962000; 962000; 962842; 964947; 967053; 969158; 970000; 970000;
  970000; 970000; 971684; 973790; 975895; 978000; 979053; 980526; 985789; 991263; 997579; 1004210; 1011580; 1018320; 1024100; 1029890;
  1035680; 1171260; 1393370; 1725260; 2104210; 2466320; 2824210; 3305260; 3800000];
  [0; 0; 9626; 114333; 226866; 383749; 522165; 596970; 663048; 708762; 751749; 790190; 818970; 835939; 852182; 867766; 880649; 891732;
  899775; 906355; 912935; 919515; 925524; 931411; 934649; 937593; 940537; 943593; 948788; 953983; 959177; 963333; 963333; 963333; 963333;
  963576; 964268; 964667; 964667; 964667; 964667; 964667; 964667; 964667; 964667; 964667; 964667; 966468; 968719; 970970; 973221; 973333;
  973333; 973333; 973558; 975810; 978061; 980312; 982173; 982866; 985022; 990216; 995688; 1001580; 1007790; 1014370; 1020380; 1025920;
  1031460; 1037000; 1196730; 1422530; 1773940; 2161820; 2523200; 2879910; 3367960; 3866670];
  [0; 0; 7394; 117537; 232359; 389282; 533590; 606410; 673282; 716359; 757897; 794820; 825487; 841556; 857385; 872769; 886239; 896838;
  905282; 911094; 916906; 922718; 928342; 933812; 937641; 940376; 943111; 945846; 950256; 955385; 960513; 965641; 966667; 966667; 966667;
  966667; 966974; 967316; 967333; 967333; 967333; 967333; 967333; 967333; 967333; 967333; 967333; 967812; 970205; 972598; 974992; 976667;
  976667; 976667; 976667; 977624; 980017; 982410; 984803; 986171; 986513; 989487; 994615; 999949; 1005420; 1011110; 1016920; 1022380;
  1027680; 1032970; 1038270; 1222850; 1452260; 1823760; 2220340; 2580000; 2935550; 3430770; 3933330];
  [0; 0; 4886; 120329; 237848; 394810; 545316; 616203; 684051; 724557; 764430; 799873; 832278; 847468; 862658; 877848; 892025; 902152;
  911139; 916203; 921266; 926329; 931392; 936456; 940759; 943291; 945823; 948354; 951772; 956835; 961899; 966962; 970000; 970000; 970000;
  970000; 970000; 970000; 970000; 970000; 970000; 970000; 970000; 970000; 970000; 970000; 970000; 970000; 971519; 974051; 976582; 979114;
  980000; 980000; 980000; 980000; 981772; 984304; 986835; 989367; 990000; 990000; 993924; 998987; 1004050; 1009110; 1014180; 1019240;
  1024300; 1029370; 1034430; 1039490; 1249620; 1482530; 1874680; 2279750; 2636710; 2991140; 3493670; 4000000];
  [0; 0; 3810; 122857; 241905; 395238; 548571; 617381; 686190; 725714; 765238; 799524; 833809; 848571; 863333; 877857; 892381; 902143;
  911905; 916905; 921905; 926786; 931667; 936548; 941429; 944048; 946667; 949286; 951905; 956905; 961905; 966667; 971429; 971429; 971429;
  971429; 971429; 971429; 971429; 971429; 971429; 971429; 971429; 971429; 971429; 971429; 971429; 971429; 971429; 973810; 976191; 978571;
  980952; 980952; 980952; 980952; 980952; 983333; 985714; 988095; 990476; 990476; 990476; 995238; 1000000; 1004760; 1009520; 1014290;
  1019050; 1023810; 1028570; 1033330; 1038090; 1257140; 1476190; 1857140; 2238100; 2571430; 2904760; 3380950; 3857140];
  [0; 0; 0; 125118; 247681; 396114; 545908; 618918; 685703; 727090; 765655; 799488; 832645; 849812; 864156; 878113; 891987; 902287;
  911693; 917637; 922575; 927337; 932040; 936743; 941446; 944750; 947454; 950159; 952863; 957019; 961958; 966602; 971070; 972857; 972857;
  972857; 972857; 972857; 972857; 972857; 972857; 972857; 972857; 972857; 972857; 972857; 972857; 972857; 972857; 973751; 975985; 978219;
  980453; 981905; 981905; 981905; 981905; 982575; 984809; 987043; 989277; 990952; 990952; 991958; 996426; 1000890; 1005360; 1009830;
  1014300; 1018760; 1023230; 1027700; 1032170; 1056740; 1262270; 1479190; 1836630; 2191830; 2504590; 2820690; 3267490; 3714290];
  [0; 0; 0; 127122; 253115; 397422; 543763; 620801; 685610; 728676; 766307; 799756; 831812; 851185; 865122; 878606; 891847; 902578;
  911638; 918397; 923275; 927979; 932509; 937038; 941568; 945401; 948188; 950976; 953763; 957178; 962056; 966760; 970941; 974286; 974286;
  974286; 974286; 974286; 974286; 974286; 974286; 974286; 974286; 974286; 974286; 974286; 974286; 974286; 974286; 974286; 975958; 978049;
  980139; 982230; 982857; 982857; 982857; 982857; 984112; 986202; 988293; 990383; 991429; 991429; 993310; 997491; 1001670; 1005850;
  1010040; 1014220; 1018400; 1022580; 1026760; 1030940; 1072750; 1265090; 1478750; 1813240; 2143550; 2436240; 2735190; 3153310; 3571430];
  [0; 0; 0; 128878; 258218; 399145; 542117; 623018; 685898; 730465; 767183; 800316; 831297; 852685; 866225; 879329; 891951; 903012;
  911733; 919185; 924005; 928709; 933069; 937430; 941790; 946001; 948870; 951738; 954607; 957476; 962197; 967017; 971033; 974934; 975714;
  975714; 975714; 975714; 975714; 975714; 975714; 975714; 975714; 975714; 975714; 975714; 975714; 975714; 975714; 975714; 976104; 978055;
  980006; 981956; 983810; 983810; 983810; 983810; 983810; 985565; 987516; 989466; 991417; 991905; 991905; 994538; 998439; 1002340;
  1006240; 1010140; 1014050; 1017950; 1021850; 1025750; 1029650; 1086220; 1265680; 1474990; 1787090; 2093340; 2366440; 2648310; 3038440;
  3428570];
  [0; 0; 0; 130395; 263002; 401270; 540952; 625556; 686553; 732449; 768277; 801156; 831088; 854308; 867460; 880272; 892290; 903583;
  911973; 920000; 924762; 929524; 933719; 937914; 942109; 946304; 949501; 952449; 955397; 958345; 962381; 967143; 971338; 974966; 977143;
  977143; 977143; 977143; 977143; 977143; 977143; 977143; 977143; 977143; 977143; 977143; 977143; 977143; 977143; 977143; 977143; 978231;
  980045; 981859; 983673; 984762; 984762; 984762; 984762; 985125; 986939; 988753; 990567; 992381; 992381; 992381; 995646; 999274; 1002900;
  1006530; 1010160; 1013790; 1017420; 1021040; 1024670; 1028300; 1097230; 1264130; 1468030; 1758280; 2041270; 2295240; 2560090; 2922900;
  3285710];
  [0; 0; 0; 131681; 267479; 403781; 540252; 628403; 687563; 734622; 769580; 802269; 831176; 856050; 868824; 881429; 892857; 904286;
  912353; 920420; 925546; 930252; 934454; 938487; 942521; 946555; 950084; 953109; 956134; 959160; 962605; 967311; 971849; 975210; 978571;
  978571; 978571; 978571; 978571; 978571; 978571; 978571; 978571; 978571; 978571; 978571; 978571; 978571; 978571; 978571; 978571; 978571;
  980252; 981933; 983613; 985294; 985714; 985714; 985714; 985714; 986555; 988235; 989916; 991597; 992857; 992857; 993277; 996639; 1000000;
  1003360; 1006720; 1010080; 1013450; 1016810; 1020170; 1023530; 1026890; 1105880; 1260500; 1457980; 1726890; 1987400; 2222690; 2470590;
  2806720; 3142860];
  [0; 0; 0; 132744; 271659; 406667; 540000; 631550; 688915; 736977; 771085; 803643; 831550; 857907; 870310; 882713; 893643; 904496;
  912868; 920620; 926357; 931008; 935271; 939147; 943023; 946899; 950620; 953721; 956822; 959922; 963023; 967519; 972171; 975659; 978760;
  980000; 980000; 980000; 980000; 980000; 980000; 980000; 980000; 980000; 980000; 980000; 980000; 980000; 980000; 980000; 980000; 980000;
  980620; 982171; 983721; 985271; 986667; 986667; 986667; 986667; 986667; 987907; 989457; 991008; 992558; 993333; 993333; 994419; 997519;
  1000620; 1003720; 1006820; 1009920; 1013020; 1016120; 1019230; 1022330; 1025430; 1112250; 1254880; 1444960; 1693020; 1931780; 2148840;
  2379840; 2689920; 3000000];
  [0; 0; 0; 133593; 275552; 409912; 540181; 634986; 690597; 739507; 772786; 805271; 832200; 859130; 871916; 883957; 894641; 904932;
  913514; 920958; 927192; 931790; 936169; 939891; 943612; 947334; 951056; 954286; 957460; 960635; 963810; 967767; 972365; 976305; 979152;
  981429; 981429; 981429; 981429; 981429; 981429; 981429; 981429; 981429; 981429; 981429; 981429; 981429; 981429; 981429; 981429; 981429;
  981429; 982567; 983990; 985413; 986836; 987619; 987619; 987619; 987619; 987761; 989184; 990608; 992031; 993454; 993810; 993810; 995446;
  998292; 1001140; 1003990; 1006830; 1009680; 1012520; 1015370; 1018220; 1021060; 1023910; 1116410; 1247330; 1429060; 1656760; 1874490;
  2073730; 2287900; 2572520; 2857140];
  [0; 0; 0; 134234; 279169; 413506; 540779; 638701; 692597; 742208; 774675; 807143; 833117; 859091; 873636; 885325; 895844; 905584;
  914286; 921429; 928052; 932597; 937143; 940714; 944286; 947857; 951429; 954805; 958052; 961299; 964545; 968052; 972597; 977143; 979740;
  982338; 982857; 982857; 982857; 982857; 982857; 982857; 982857; 982857; 982857; 982857; 982857; 982857; 982857; 982857; 982857; 982857;
  982857; 983117; 984416; 985714; 987013; 988312; 988571; 988571; 988571; 988571; 989091; 990390; 991688; 992987; 994286; 994286; 994286;
  996364; 998961; 1001560; 1004160; 1006750; 1009350; 1011950; 1014540; 1017140; 1019740; 1022340; 1118440; 1237920; 1410390; 1618180;
  1815590; 1997400; 2194800; 2454550; 2714290];
  [0; 0; 0; 134674; 282518; 417437; 541782; 642686; 694906; 745072; 776747; 808422; 834291; 859331; 875468; 886811; 897245; 906447;
  915179; 922028; 928876; 933430; 937924; 941616; 945040; 948464; 951889; 955281; 958598; 961915; 965233; 968550; 972868; 977362; 980519;
  982873; 984286; 984286; 984286; 984286; 984286; 984286; 984286; 984286; 984286; 984286; 984286; 984286; 984286; 984286; 984286; 984286;
  984286; 984286; 984992; 986169; 987346; 988523; 989524; 989524; 989524; 989524; 989524; 990348; 991525; 992702; 993879; 994762; 994762;
  994821; 997175; 999529; 1001880; 1004240; 1006590; 1008950; 1011300; 1013650; 1016010; 1018360; 1020720; 1118420; 1226710; 1389030;
  1577370; 1755110; 1919900; 2100590; 2336010; 2571430];
  [0; 0; 0; 134921; 285608; 421693; 543175; 646931; 697513; 748095; 778995; 809894; 835714; 859841; 877407; 888413; 898836; 907513;
  916190; 922751; 929312; 934286; 938730; 942593; 945873; 949153; 952434; 955714; 959101; 962487; 965873; 969259; 973175; 977619; 981481;
  983598; 985714; 985714; 985714; 985714; 985714; 985714; 985714; 985714; 985714; 985714; 985714; 985714; 985714; 985714; 985714; 985714;
  985714; 985714; 985714; 986772; 987831; 988889; 989947; 990476; 990476; 990476; 990476; 990476; 991534; 992593; 993651; 994709; 995238;
  995238; 995767; 997884; 1000000; 1002120; 1004230; 1006350; 1008470; 1010580; 1012700; 1014810; 1016930; 1019050; 1116400; 1213760;
  1365080; 1534390; 1693120; 1841270; 2005290; 2216930; 2428570];
  [0; 0; 0; 134980; 288449; 426264; 544945; 651429; 700408; 749388; 781413; 811554; 837378; 860612; 879451; 890126; 900612; 908776;
  916939; 923595; 929874; 935165; 939560; 943642; 946782; 949921; 953061; 956201; 959560; 963014; 966468; 969922; 973516; 977912; 982308;
  984505; 986389; 987143; 987143; 987143; 987143; 987143; 987143; 987143; 987143; 987143; 987143; 987143; 987143; 987143; 987143; 987143;
  987143; 987143; 987143; 987520; 988462; 989403; 990345; 991287; 991429; 991429; 991429; 991429; 991711; 992653; 993595; 994537; 995479;
  995714; 995714; 996609; 998493; 1000380; 1002260; 1004140; 1006030; 1007910; 1009800; 1011680; 1013560; 1015450; 1025810; 1112470;
  1199120; 1338620; 1489330; 1629670; 1761540; 1908950; 2097330; 2285710];
  [0; 0; 0; 134857; 291048; 431139; 547081; 656170; 703582; 750994; 783996; 813395; 839275; 861636; 881594; 891946; 902298; 910228;
  917888; 924555; 930559; 936066; 940414; 944762; 947764; 950766; 953768; 956770; 959979; 963499; 967019; 970538; 974058; 978240; 982588;
  985590; 987246; 988571; 988571; 988571; 988571; 988571; 988571; 988571; 988571; 988571; 988571; 988571; 988571; 988571; 988571; 988571;
  988571; 988571; 988571; 988571; 989234; 990062; 990890; 991718; 992381; 992381; 992381; 992381; 992381; 992878; 993706; 994534; 995362;
  996190; 996190; 996190; 997350; 999006; 1000660; 1002320; 1003980; 1005630; 1007290; 1008940; 1010600; 1012260; 1013910; 1030480;
  1106670; 1182860; 1309730; 1442240; 1564800; 1680750; 1811590; 1977220; 2142860];
  [0; 0; 0; 134559; 293412; 436308; 549570; 661147; 707025; 752903; 786738; 815412; 841398; 862903; 883835; 893871; 903907; 911864;
  919032; 925627; 931362; 936989; 941290; 945591; 948817; 951685; 954552; 957419; 960358; 963943; 967527; 971111; 974695; 978602; 982903;
  986846; 988280; 989713; 990000; 990000; 990000; 990000; 990000; 990000; 990000; 990000; 990000; 990000; 990000; 990000; 990000; 990000;
  990000; 990000; 990000; 990000; 990143; 990860; 991577; 992294; 993011; 993333; 993333; 993333; 993333; 993333; 993979; 994695; 995412;
  996129; 996667; 996667; 996667; 997993; 999427; 1000860; 1002290; 1003730; 1005160; 1006600; 1008030; 1009460; 1010900; 1012330;
  1033120; 1099070; 1165020; 1278490; 1393190; 1498570; 1598920; 1713260; 1856630; 2000000];
  [0; 0; 0; 134091; 295550; 441763; 552401; 663040; 710729; 755106; 789635; 817599; 843739; 864407; 885076; 895897; 905623; 913678;
  920365; 926808; 932280; 937751; 942189; 946444; 949939; 952675; 955410; 958146; 960881; 964347; 967994; 971641; 975289; 978997; 983252;
  987508; 989483; 990699; 991429; 991429; 991429; 991429; 991429; 991429; 991429; 991429; 991429; 991429; 991429; 991429; 991429; 991429;
  991429; 991429; 991429; 991429; 991429; 991793; 992401; 993009; 993617; 994225; 994286; 994286; 994286; 994286; 994407; 995015; 995623;
  996231; 996839; 997143; 997143; 997325; 998541; 999757; 1000970; 1002190; 1003400; 1004620; 1005840; 1007050; 1008270; 1009480; 1010700;
  1033800; 1089730; 1147720; 1244980; 1342250; 1431000; 1516110; 1613980; 1735560; 1857140];
  [0; 0; 0; 133459; 297469; 447494; 555564; 663634; 714687; 757594; 792682; 819950; 846291; 866140; 885990; 898020; 907444; 915664;
  921880; 928095; 933308; 938521; 943108; 947318; 951128; 953734; 956341; 958947; 961554; 964712; 968421; 972130; 975840; 979549; 983634;
  987845; 990852; 991855; 992857; 992857; 992857; 992857; 992857; 992857; 992857; 992857; 992857; 992857; 992857; 992857; 992857; 992857;
  992857; 992857; 992857; 992857; 992857; 992857; 993358; 993860; 994361; 994862; 995238; 995238; 995238; 995238; 995238; 995489; 995990;
  996491; 996992; 997494; 997619; 997619; 997995; 998998; 1000000; 1001000; 1002000; 1003010; 1004010; 1005010; 1006010; 1007020; 1008020;
  1009020; 1032580; 1078700; 1129070; 1209270; 1289470; 1362150; 1432330; 1513780; 1614040; 1714290];
  [0; 0; 0; 132667; 299175; 453492; 559048; 664603; 718889; 760357; 795873; 822460; 849048; 868095; 887143; 900238; 909365; 917817;
  923571; 929325; 934444; 939405; 944048; 948214; 952381; 954861; 957341; 959821; 962302; 965040; 968810; 972579; 976349; 980119; 984048;
  988214; 992381; 993175; 993968; 994286; 994286; 994286; 994286; 994286; 994286; 994286; 994286; 994286; 994286; 994286; 994286; 994286;
  994286; 994286; 994286; 994286; 994286; 994286; 994444; 994841; 995238; 995635; 996032; 996190; 996190; 996190; 996190; 996190; 996508;
  996905; 997302; 997698; 998095; 998095; 998095; 998571; 999365; 1000160; 1000950; 1001750; 1002540; 1003330; 1004130; 1004920; 1005710;
  1006510; 1007300; 1029520; 1066030; 1107940; 1171430; 1234920; 1292060; 1347620; 1412700; 1492060; 1571430];
  [0; 0; 0; 131720; 300675; 459750; 562842; 665935; 723328; 763387; 799205; 825125; 851046; 870265; 888527; 902548; 911384; 920133;
  925434; 930736; 935685; 940398; 945007; 949131; 953255; 956053; 958409; 960766; 963122; 965479; 969161; 972990; 976819; 980648; 984492;
  988616; 992739; 994654; 995243; 995714; 995714; 995714; 995714; 995714; 995714; 995714; 995714; 995714; 995714; 995714; 995714; 995714;
  995714; 995714; 995714; 995714; 995714; 995714; 995714; 995950; 996244; 996539; 996834; 997128; 997143; 997143; 997143; 997143; 997172;
  997467; 997761; 998056; 998351; 998571; 998571; 998571; 999057; 999647; 1000240; 1000830; 1001410; 1002000; 1002590; 1003180; 1003770;
  1004360; 1004950; 1005540; 1024680; 1051780; 1084390; 1131520; 1178650; 1220770; 1262000; 1310750; 1369660; 1428570];
  [0; 0; 0; 130624; 301975; 466258; 566939; 667619; 727998; 766676; 802673; 827940; 853207; 872643; 890136; 904947; 913499; 922051;
  927464; 932323; 937026; 941497; 945967; 950068; 954150; 957308; 959543; 961778; 964014; 966249; 969475; 973363; 977250; 981137; 985024;
  989048; 993129; 996288; 996676; 997065; 997143; 997143; 997143; 997143; 997143; 997143; 997143; 997143; 997143; 997143; 997143; 997143;
  997143; 997143; 997143; 997143; 997143; 997143; 997143; 997182; 997376; 997570; 997765; 997959; 998095; 998095; 998095; 998095; 998095;
  998173; 998367; 998562; 998756; 998950; 999048; 999048; 999067; 999456; 999844; 1000230; 1000620; 1001010; 1001400; 1001790; 1002180;
  1002570; 1002950; 1003340; 1003730; 1018120; 1036000; 1058500; 1089600; 1120700; 1148300; 1175510; 1207970; 1246840; 1285710];
  [0; 0; 0; 129382; 303081; 473011; 571328; 669644; 732891; 770216; 806272; 830899; 855527; 875224; 891962; 907431; 915705; 923978;
  929654; 934079; 938466; 942698; 946931; 951024; 955065; 958624; 960741; 962857; 964974; 967090; 969755; 973699; 977643; 981587; 985532;
  989509; 993550; 997590; 998264; 998456; 998571; 998571; 998571; 998571; 998571; 998571; 998571; 998571; 998571; 998571; 998571; 998571;
  998571; 998571; 998571; 998571; 998571; 998571; 998571; 998571; 998629; 998725; 998822; 998918; 999014; 999048; 999048; 999048; 999048;
  999048; 999115; 999211; 999307; 999404; 999500; 999524; 999524; 999577; 999769; 999961; 1000150; 1000350; 1000540; 1000730; 1000920;
  1001120; 1001310; 1001500; 1001690; 1001890; 1009870; 1018720; 1030350; 1045740; 1061140; 1074700; 1088170; 1104380; 1123620; 1142860];
  [0; 1000; 27000; 128000; 304000; 480000; 576000; 672000; 738000; 774000; 810000; 834000; 858000; 878000; 894000; 910000; 918000; 926000;
  932000; 936000; 940000; 944000; 948000; 952000; 956000; 960000; 962000; 964000; 966000; 968000; 970000; 974000; 978000; 982000; 986000;
  990000; 994000; 998000; 1000000; 1000000; 1000000; 1000000; 1000000; 1000000; 1000000; 1000000; 1000000; 1000000; 1000000; 1000000;
  1000000; 1000000; 1000000; 1000000; 1000000; 1000000; 1000000; 1000000; 1000000; 1000000; 1000000; 1000000; 1000000; 1000000; 1000000;
  1000000; 1000000; 1000000; 1000000; 1000000; 1000000; 1000000; 1000000; 1000000; 1000000; 1000000; 1000000; 1000000; 1000000; 1000000;
  1000000; 1000000; 1000000; 1000000; 1000000; 1000000; 1000000; 1000000; 1000000; 1000000; 1000000; 1000000; 1000000; 1000000; 1000000;
  1000000; 1000000; 1000000; 1000000; 1000000; 1000000];
  [0; 843; 58009; 144263; 299248; 454232; 571285; 650408; 729530; 771505; 801097; 830690; 850000; 869310; 886959; 899624; 912288; 921630;
  927649; 933668; 937900; 941536; 945172; 948809; 952445; 956238; 960502; 964765; 967649; 969154; 970658; 972163; 973668; 975172; 978182;
  981191; 984201; 987210; 990219; 993229; 996238; 999248; 1000000; 1000000; 1000000; 1000000; 1000000; 1000000; 1000000; 1000000; 1000000;
  1000000; 1000000; 1000000; 1000000; 1000000; 1000000; 1000000; 1000000; 1000000; 1000000; 1000000; 1000000; 1000000; 1000000; 1000000;
  1000000; 1000000; 1000000; 1000000; 1000000; 1000000; 1000000; 1000000; 1000000; 1000000; 1000000; 1000000; 1000000; 1000000; 1000000;
  1000000; 1000000; 1000000; 1000000; 1000000; 1000000; 1000000; 1000000; 1000000; 1000000; 1000000; 1000000; 1000000; 1000000; 1000000;
  1000000; 1000000; 1000000; 1000000; 1000000; 1000000];
  [0; 723; 76571; 171034; 308506; 445977; 583448; 648506; 713563; 778621; 802874; 827126; 851379; 866782; 882184; 897586; 907471; 917356;
  927241; 931609; 935977; 940345; 943678; 947012; 950345; 953678; 957012; 960345; 964828; 969310; 973793; 974885; 975977; 977069; 978161;
  979253; 980345; 982529; 984713; 986897; 989080; 991264; 993448; 995632; 997816; 1000000; 1000000; 1000000; 1000000; 1000000; 1000000;
  1000000; 1000000; 1000000; 1000000; 1000000; 1000000; 1000000; 1000000; 1000000; 1000000; 1000000; 1000000; 1000000; 1000000; 1000000;
  1000000; 1000000; 1000000; 1000000; 1000000; 1000000; 1000000; 1000000; 1000000; 1000000; 1000000; 1000000; 1000000; 1000000; 1000000;
  1000000; 1000000; 1000000; 1000000; 1000000; 1000000; 1000000; 1000000; 1000000; 1000000; 1000000; 1000000; 1000000; 1000000; 1000000;
  1000000; 1000000; 1000000; 1000000; 1000000; 1000000; 1000000];
  [0; 632; 85557; 206353; 328541; 451194; 573846; 661751; 714907; 768064; 812865; 832599; 852334; 872069; 884164; 896260; 908355; 917029;
  924562; 932095; 937347; 940318; 943289; 946286; 949363; 952440; 955517; 958594; 961671; 964748; 969019; 973687; 978355; 981061; 981804;
  982546; 983289; 984032; 984775; 985517; 987003; 988488; 989973; 991459; 992944; 994430; 995915; 997401; 998886; 1000000; 1000000;
  1000000; 1000000; 1000000; 1000000; 1000000; 1000000; 1000000; 1000000; 1000000; 1000000; 1000000; 1000000; 1000000; 1000000; 1000000;
  1000000; 1000000; 1000000; 1000000; 1000000; 1000000; 1000000; 1000000; 1000000; 1000000; 1000000; 1000000; 1000000; 1000000; 1000000;
  1000000; 1000000; 1000000; 1000000; 1000000; 1000000; 1000000; 1000000; 1000000; 1000000; 1000000; 1000000; 1000000; 1000000; 1000000;
  1000000; 1000000; 1000000; 1000000; 1000000; 1000000; 1000000; 1000000];
  [0; 565; 87020; 230386; 357044; 466995; 576946; 686897; 729852; 772808; 815764; 845172; 861035; 876897; 892759; 902020; 911281; 920542;
  927931; 933448; 938965; 944483; 946256; 948030; 949803; 952118; 954975; 957833; 960690; 963547; 966404; 969261; 973103; 977931; 982759;
  987586; 988030; 988473; 988916; 989360; 989803; 990246; 990690; 991576; 992463; 993350; 994236; 995123; 996010; 996897; 997783; 998670;
  999557; 1000000; 1000000; 1000000; 1000000; 1000000; 1000000; 1000000; 1000000; 1000000; 1000000; 1000000; 1000000; 1000000; 1000000;
  1000000; 1000000; 1000000; 1000000; 1000000; 1000000; 1000000; 1000000; 1000000; 1000000; 1000000; 1000000; 1000000; 1000000; 1000000;
  1000000; 1000000; 1000000; 1000000; 1000000; 1000000; 1000000; 1000000; 1000000; 1000000; 1000000; 1000000; 1000000; 1000000; 1000000;
  1000000; 1000000; 1000000; 1000000; 1000000; 1000000; 1000000; 1000000];
  [0; 515; 82464; 245391; 392322; 491264; 590207; 689149; 755678; 789793; 823908; 858023; 875931; 888437; 900943; 913448; 920253; 927057;
  933862; 939908; 943678; 947448; 951218; 953471; 954207; 954943; 955678; 957862; 960529; 963195; 965862; 968529; 971195; 973862; 977103;
  982069; 987034; 992000; 994575; 994759; 994942; 995126; 995310; 995494; 995678; 995862; 996230; 996598; 996966; 997333; 997701; 998069;
  998437; 998805; 999172; 999540; 999908; 1000000; 1000000; 1000000; 1000000; 1000000; 1000000; 1000000; 1000000; 1000000; 1000000;
  1000000; 1000000; 1000000; 1000000; 1000000; 1000000; 1000000; 1000000; 1000000; 1000000; 1000000; 1000000; 1000000; 1000000; 1000000;
  1000000; 1000000; 1000000; 1000000; 1000000; 1000000; 1000000; 1000000; 1000000; 1000000; 1000000; 1000000; 1000000; 1000000; 1000000;
  1000000; 1000000; 1000000; 1000000; 1000000; 1000000; 1000000; 1000000; 1000000];
  [0; 964; 73889; 251468; 429048; 517857; 606667; 695476; 784286; 811190; 838095; 865000; 891905; 901667; 911429; 921191; 930952; 935833;
  940714; 945595; 950476; 952976; 955476; 957976; 960476; 960595; 960714; 960833; 960952; 963452; 965952; 968452; 970952; 973452; 975952;
  978452; 980952; 985714; 990476; 995238; 1000000; 1000000; 1000000; 1000000; 1000000; 1000000; 1000000; 1000000; 1000000; 1000000;
  1000000; 1000000; 1000000; 1000000; 1000000; 1000000; 1000000; 1000000; 1000000; 1000000; 1000000; 1000000; 1000000; 1000000; 1000000;
  1000000; 1000000; 1000000; 1000000; 1000000; 1000000; 1000000; 1000000; 1000000; 1000000; 1000000; 1000000; 1000000; 1000000; 1000000;
  1000000; 1000000; 1000000; 1000000; 1000000; 1000000; 1000000; 1000000; 1000000; 1000000; 1000000; 1000000; 1000000; 1000000; 1000000;
  1000000; 1000000; 1000000; 1000000; 1000000; 1000000; 1000000; 1000000; 1000000; 1000000; 1000000; 1000000];
  [0; 2555; 66513; 247745; 428978; 532773; 610756; 688739; 766723; 816975; 839496; 862017; 884538; 903445; 911513; 919580; 927647; 935714;
  939748; 943781; 947815; 951849; 954622; 956975; 959328; 961681; 963193; 963866; 964538; 965210; 966303; 968655; 971008; 973361; 975714;
  978067; 980420; 982773; 985126; 988235; 991597; 994958; 998319; 1000000; 1000000; 1000000; 1000000; 1000000; 1000000; 1000000; 1000000;
  1000000; 1000000; 1000000; 1000000; 1000000; 1000000; 1000000; 1000000; 1000000; 1000000; 1000000; 1000000; 1000000; 1000000; 1000000;
  1000000; 1000000; 1000000; 1000000; 1000000; 1000000; 1000000; 1000000; 1000000; 1000000; 1000000; 1000000; 1000000; 1000000; 1000000;
  1000000; 1000000; 1000000; 1000000; 1000000; 1000000; 1000000; 1000000; 1000000; 1000000; 1000000; 1000000; 1000000; 1000000; 1000000;
  1000000; 1000000; 1000000; 1000000; 1000000; 1000000; 1000000; 1000000; 1000000; 1000000; 1000000; 1000000];
  [0; 2974; 58325; 242804; 427284; 553704; 622063; 690423; 758783; 827143; 845767; 864392; 883016; 901640; 914233; 920794; 927355; 933915;
  940476; 943757; 947037; 950317; 953598; 956349; 958571; 960794; 963016; 965238; 966402; 967566; 968730; 969894; 971587; 973810; 976032;
  978254; 980476; 982698; 984921; 987143; 989365; 991534; 993651; 995767; 997884; 1000000; 1000000; 1000000; 1000000; 1000000; 1000000;
  1000000; 1000000; 1000000; 1000000; 1000000; 1000000; 1000000; 1000000; 1000000; 1000000; 1000000; 1000000; 1000000; 1000000; 1000000;
  1000000; 1000000; 1000000; 1000000; 1000000; 1000000; 1000000; 1000000; 1000000; 1000000; 1000000; 1000000; 1000000; 1000000; 1000000;
  1000000; 1000000; 1000000; 1000000; 1000000; 1000000; 1000000; 1000000; 1000000; 1000000; 1000000; 1000000; 1000000; 1000000; 1000000;
  1000000; 1000000; 1000000; 1000000; 1000000; 1000000; 1000000; 1000000; 1000000; 1000000; 1000000; 1000000; 1000000];
  [0; 2406; 49453; 236838; 424223; 579699; 639449; 699198; 758947; 818697; 856140; 871278; 886416; 901554; 916692; 924386; 929599; 934812;
  940025; 945238; 947845; 950451; 953058; 955664; 958145; 960251; 962356; 964461; 966566; 968421; 970025; 971629; 973233; 974837; 976817;
  978922; 981028; 983133; 985238; 987343; 989449; 991554; 993659; 995489; 996491; 997494; 998496; 999499; 1000000; 1000000; 1000000;
  1000000; 1000000; 1000000; 1000000; 1000000; 1000000; 1000000; 1000000; 1000000; 1000000; 1000000; 1000000; 1000000; 1000000; 1000000;
  1000000; 1000000; 1000000; 1000000; 1000000; 1000000; 1000000; 1000000; 1000000; 1000000; 1000000; 1000000; 1000000; 1000000; 1000000;
  1000000; 1000000; 1000000; 1000000; 1000000; 1000000; 1000000; 1000000; 1000000; 1000000; 1000000; 1000000; 1000000; 1000000; 1000000;
  1000000; 1000000; 1000000; 1000000; 1000000; 1000000; 1000000; 1000000; 1000000; 1000000; 1000000; 1000000; 1000000; 1000000];
  [0; 1000; 40000; 230000; 420000; 610000; 662000; 714000; 766000; 818000; 870000; 882000; 894000; 906000; 918000; 930000; 934000; 938000;
  942000; 946000; 950000; 952000; 954000; 956000; 958000; 960000; 962000; 964000; 966000; 968000; 970000; 972000; 974000; 976000; 978000;
  980000; 982000; 984000; 986000; 988000; 990000; 992000; 994000; 996000; 998000; 1000000; 1000000; 1000000; 1000000; 1000000; 1000000;
  1000000; 1000000; 1000000; 1000000; 1000000; 1000000; 1000000; 1000000; 1000000; 1000000; 1000000; 1000000; 1000000; 1000000; 1000000;
  1000000; 1000000; 1000000; 1000000; 1000000; 1000000; 1000000; 1000000; 1000000; 1000000; 1000000; 1000000; 1000000; 1000000; 1000000;
  1000000; 1000000; 1000000; 1000000; 1000000; 1000000; 1000000; 1000000; 1000000; 1000000; 1000000; 1000000; 1000000; 1000000; 1000000;
  1000000; 1000000; 1000000; 1000000; 1000000; 1000000; 1000000; 1000000; 1000000; 1000000; 1000000; 1000000; 1000000; 1000000; 1000000];
  [0; 0; 51179; 219729; 401229; 582729; 663522; 710747; 757972; 805197; 852422; 881420; 892192; 902964; 913736; 924507; 933539; 937348;
  941158; 944967; 948777; 952586; 954655; 956724; 958793; 960862; 962931; 964754; 966494; 968235; 969975; 971716; 973457; 975197; 976938;
  978678; 980419; 982159; 983900; 985640; 987381; 989121; 990862; 992603; 994343; 996084; 997824; 999565; 1000000; 1000000; 1000000;
  1000000; 1000000; 1000000; 1000000; 1000000; 1000000; 1000000; 1000000; 1000000; 1000000; 1000000; 1000000; 1000000; 1000000; 1000000;
  1000000; 1000000; 1000000; 1000000; 1000000; 1000000; 1000000; 1000000; 1000000; 1000000; 1000000; 1000000; 1000000; 1000000; 1000000;
  1000000; 1000000; 1000000; 1000000; 1000000; 1000000; 1000000; 1000000; 1000000; 1000000; 1000000; 1000000; 1000000; 1000000; 1000000;
  1000000; 1000000; 1000000; 1000000; 1000000; 1000000; 1000000; 1000000; 1000000; 1000000; 1000000; 1000000; 1000000; 1000000; 1000000;
  1000000];
  [0; 0; 59994; 211776; 385549; 559321; 667649; 710533; 753417; 796301; 839185; 882069; 891724; 901379; 911035; 920690; 930345; 936991;
  940627; 944263; 947900; 951536; 955172; 957304; 959436; 961567; 963699; 965831; 967649; 969154; 970658; 972163; 973668; 975172; 976677;
  978182; 979687; 981191; 982696; 984201; 985705; 987210; 988715; 990219; 991724; 993229; 994734; 996238; 997743; 999248; 1000000;
  1000000; 1000000; 1000000; 1000000; 1000000; 1000000; 1000000; 1000000; 1000000; 1000000; 1000000; 1000000; 1000000; 1000000; 1000000;
  1000000; 1000000; 1000000; 1000000; 1000000; 1000000; 1000000; 1000000; 1000000; 1000000; 1000000; 1000000; 1000000; 1000000; 1000000;
  1000000; 1000000; 1000000; 1000000; 1000000; 1000000; 1000000; 1000000; 1000000; 1000000; 1000000; 1000000; 1000000; 1000000; 1000000;
  1000000; 1000000; 1000000; 1000000; 1000000; 1000000; 1000000; 1000000; 1000000; 1000000; 1000000; 1000000; 1000000; 1000000; 1000000;
  1000000; 1000000];
  [0; 0; 66753; 205840; 372556; 539273; 674040; 712961; 751882; 790802; 829723; 868643; 892421; 901057; 909693; 918328; 926964; 935600;
  940367; 943846; 947324; 950802; 954280; 957759; 959948; 962136; 964325; 966514; 968703; 970667; 971956; 973246; 974535; 975825; 977114;
  978403; 979693; 980982; 982271; 983561; 984850; 986139; 987429; 988718; 990008; 991297; 992586; 993876; 995165; 996454; 997744; 999033;
  1000000; 1000000; 1000000; 1000000; 1000000; 1000000; 1000000; 1000000; 1000000; 1000000; 1000000; 1000000; 1000000; 1000000; 1000000;
  1000000; 1000000; 1000000; 1000000; 1000000; 1000000; 1000000; 1000000; 1000000; 1000000; 1000000; 1000000; 1000000; 1000000; 1000000;
  1000000; 1000000; 1000000; 1000000; 1000000; 1000000; 1000000; 1000000; 1000000; 1000000; 1000000; 1000000; 1000000; 1000000; 1000000;
  1000000; 1000000; 1000000; 1000000; 1000000; 1000000; 1000000; 1000000; 1000000; 1000000; 1000000; 1000000; 1000000; 1000000; 1000000;
  1000000; 1000000];
  [0; 0; 71713; 201667; 361916; 522165; 682414; 717701; 752989; 788276; 823563; 858851; 894138; 901839; 909540; 917241; 924942; 932644;
  940345; 943678; 947011; 950345; 953678; 957012; 960345; 962586; 964828; 967069; 969310; 971552; 973793; 974885; 975977; 977069; 978161;
  979253; 980345; 981437; 982529; 983621; 984713; 985805; 986897; 987989; 989080; 990172; 991264; 992356; 993448; 994540; 995632; 996724;
  997816; 998908; 1000000; 1000000; 1000000; 1000000; 1000000; 1000000; 1000000; 1000000; 1000000; 1000000; 1000000; 1000000; 1000000;
  1000000; 1000000; 1000000; 1000000; 1000000; 1000000; 1000000; 1000000; 1000000; 1000000; 1000000; 1000000; 1000000; 1000000; 1000000;
  1000000; 1000000; 1000000; 1000000; 1000000; 1000000; 1000000; 1000000; 1000000; 1000000; 1000000; 1000000; 1000000; 1000000; 1000000;
  1000000; 1000000; 1000000; 1000000; 1000000; 1000000; 1000000; 1000000; 1000000; 1000000; 1000000; 1000000; 1000000; 1000000; 1000000;
  1000000; 1000000; 1000000];
  [0; 0; 75090; 199046; 353345; 507644; 661943; 724476; 756421; 788365; 820310; 852255; 884200; 903593; 910434; 917276; 924117; 930959;
  937800; 943731; 946931; 950131; 953331; 956531; 959731; 962931; 965221; 967510; 969800; 972090; 974379; 976669; 977924; 978835; 979745;
  980655; 981566; 982476; 983386; 984297; 985207; 986117; 987028; 987938; 988848; 989759; 990669; 991579; 992490; 993400; 994310; 995221;
  996131; 997041; 997952; 998862; 999772; 1000000; 1000000; 1000000; 1000000; 1000000; 1000000; 1000000; 1000000; 1000000; 1000000;
  1000000; 1000000; 1000000; 1000000; 1000000; 1000000; 1000000; 1000000; 1000000; 1000000; 1000000; 1000000; 1000000; 1000000; 1000000;
  1000000; 1000000; 1000000; 1000000; 1000000; 1000000; 1000000; 1000000; 1000000; 1000000; 1000000; 1000000; 1000000; 1000000; 1000000;
  1000000; 1000000; 1000000; 1000000; 1000000; 1000000; 1000000; 1000000; 1000000; 1000000; 1000000; 1000000; 1000000; 1000000; 1000000;
  1000000; 1000000; 1000000; 1000000];
  [0; 0; 77066; 197798; 346605; 495411; 644217; 733050; 761910; 790769; 819629; 848488; 877347; 906207; 912255; 918302; 924350; 930398;
  936446; 942493; 947056; 950133; 953210; 956286; 959363; 962440; 965517; 967851; 970186; 972520; 974854; 977188; 979523; 981061; 981804;
  982546; 983289; 984032; 984775; 985517; 986260; 987003; 987745; 988488; 989231; 989973; 990716; 991459; 992202; 992944; 993687; 994430;
  995172; 995915; 996658; 997401; 998143; 998886; 999629; 1000000; 1000000; 1000000; 1000000; 1000000; 1000000; 1000000; 1000000; 1000000;
  1000000; 1000000; 1000000; 1000000; 1000000; 1000000; 1000000; 1000000; 1000000; 1000000; 1000000; 1000000; 1000000; 1000000; 1000000;
  1000000; 1000000; 1000000; 1000000; 1000000; 1000000; 1000000; 1000000; 1000000; 1000000; 1000000; 1000000; 1000000; 1000000; 1000000;
  1000000; 1000000; 1000000; 1000000; 1000000; 1000000; 1000000; 1000000; 1000000; 1000000; 1000000; 1000000; 1000000; 1000000; 1000000;
  1000000; 1000000; 1000000; 1000000];
  [0; 0; 77798; 197771; 341492; 485213; 628934; 743225; 769227; 795230; 821232; 847235; 873238; 899240; 914898; 920211; 925524; 930836;
  936149; 941462; 946775; 950326; 953289; 956252; 959215; 962178; 965141; 968103; 970479; 972854; 975230; 977605; 979981; 982356; 984285;
  984872; 985460; 986047; 986635; 987222; 987810; 988397; 988985; 989572; 990160; 990747; 991335; 991922; 992510; 993097; 993685; 994272;
  994860; 995447; 996035; 996622; 997209; 997797; 998384; 998972; 999559; 1000000; 1000000; 1000000; 1000000; 1000000; 1000000; 1000000;
  1000000; 1000000; 1000000; 1000000; 1000000; 1000000; 1000000; 1000000; 1000000; 1000000; 1000000; 1000000; 1000000; 1000000; 1000000;
  1000000; 1000000; 1000000; 1000000; 1000000; 1000000; 1000000; 1000000; 1000000; 1000000; 1000000; 1000000; 1000000; 1000000; 1000000;
  1000000; 1000000; 1000000; 1000000; 1000000; 1000000; 1000000; 1000000; 1000000; 1000000; 1000000; 1000000; 1000000; 1000000; 1000000;
  1000000; 1000000; 1000000; 1000000; 1000000];
  [0; 0; 77419; 198834; 337833; 476831; 615829; 754828; 778177; 801527; 824877; 848227; 871576; 894926; 918276; 922906; 927537; 932167;
  936798; 941429; 946059; 950690; 953547; 956404; 959261; 962118; 964975; 967833; 970690; 973103; 975517; 977931; 980345; 982759; 985172;
  987586; 988030; 988473; 988916; 989360; 989803; 990246; 990690; 991133; 991576; 992020; 992463; 992906; 993350; 993793; 994236; 994680;
  995123; 995567; 996010; 996453; 996897; 997340; 997783; 998227; 998670; 999113; 999557; 1000000; 1000000; 1000000; 1000000; 1000000;
  1000000; 1000000; 1000000; 1000000; 1000000; 1000000; 1000000; 1000000; 1000000; 1000000; 1000000; 1000000; 1000000; 1000000; 1000000;
  1000000; 1000000; 1000000; 1000000; 1000000; 1000000; 1000000; 1000000; 1000000; 1000000; 1000000; 1000000; 1000000; 1000000; 1000000;
  1000000; 1000000; 1000000; 1000000; 1000000; 1000000; 1000000; 1000000; 1000000; 1000000; 1000000; 1000000; 1000000; 1000000; 1000000;
  1000000; 1000000; 1000000; 1000000; 1000000; 1000000];
  [0; 0; 76043; 200874; 335476; 470077; 604679; 739281; 788591; 809471; 830351; 851231; 872111; 892990; 913870; 926308; 930303; 934298;
  938294; 942289; 946284; 950279; 953966; 956724; 959483; 962241; 965000; 967759; 970517; 973276; 975725; 978175; 980624; 983074; 985523;
  987973; 990422; 991266; 991576; 991885; 992194; 992503; 992812; 993121; 993430; 993740; 994049; 994358; 994667; 994976; 995285; 995595;
  995904; 996213; 996522; 996831; 997140; 997449; 997759; 998068; 998377; 998686; 998995; 999304; 999614; 999923; 1000000; 1000000;
  1000000; 1000000; 1000000; 1000000; 1000000; 1000000; 1000000; 1000000; 1000000; 1000000; 1000000; 1000000; 1000000; 1000000; 1000000;
  1000000; 1000000; 1000000; 1000000; 1000000; 1000000; 1000000; 1000000; 1000000; 1000000; 1000000; 1000000; 1000000; 1000000; 1000000;
  1000000; 1000000; 1000000; 1000000; 1000000; 1000000; 1000000; 1000000; 1000000; 1000000; 1000000; 1000000; 1000000; 1000000; 1000000;
  1000000; 1000000; 1000000; 1000000; 1000000; 1000000; 1000000];
  [0; 0; 73770; 203793; 334291; 464789; 595287; 725785; 800322; 818897; 837471; 856046; 874621; 893195; 911770; 930345; 933747; 937149;
  940552; 943954; 947356; 950759; 954161; 957195; 959862; 962529; 965195; 967862; 970529; 973195; 975862; 978345; 980828; 983310; 985793;
  988276; 990759; 993241; 994575; 994759; 994943; 995126; 995310; 995494; 995678; 995862; 996046; 996230; 996414; 996598; 996782; 996966;
  997149; 997333; 997517; 997701; 997885; 998069; 998253; 998437; 998621; 998805; 998989; 999172; 999356; 999540; 999724; 999908; 1000000;
  1000000; 1000000; 1000000; 1000000; 1000000; 1000000; 1000000; 1000000; 1000000; 1000000; 1000000; 1000000; 1000000; 1000000; 1000000;
  1000000; 1000000; 1000000; 1000000; 1000000; 1000000; 1000000; 1000000; 1000000; 1000000; 1000000; 1000000; 1000000; 1000000; 1000000;
  1000000; 1000000; 1000000; 1000000; 1000000; 1000000; 1000000; 1000000; 1000000; 1000000; 1000000; 1000000; 1000000; 1000000; 1000000;
  1000000; 1000000; 1000000; 1000000; 1000000; 1000000; 1000000];
  [0; 0; 70687; 206583; 334166; 460825; 587484; 714144; 813242; 829661; 846079; 862497; 878915; 895334; 911752; 928170; 937803; 940651;
  943498; 946346; 949194; 952041; 954889; 957736; 960384; 962964; 965545; 968126; 970706; 973287; 975868; 978448; 980962; 983476; 985990;
  988504; 991018; 993532; 996046; 997948; 998014; 998081; 998148; 998215; 998281; 998348; 998415; 998482; 998548; 998615; 998682; 998749;
  998815; 998882; 998949; 999016; 999082; 999149; 999216; 999283; 999349; 999416; 999483; 999550; 999616; 999683; 999750; 999816; 999883;
  999950; 1000000; 1000000; 1000000; 1000000; 1000000; 1000000; 1000000; 1000000; 1000000; 1000000; 1000000; 1000000; 1000000; 1000000;
  1000000; 1000000; 1000000; 1000000; 1000000; 1000000; 1000000; 1000000; 1000000; 1000000; 1000000; 1000000; 1000000; 1000000; 1000000;
  1000000; 1000000; 1000000; 1000000; 1000000; 1000000; 1000000; 1000000; 1000000; 1000000; 1000000; 1000000; 1000000; 1000000; 1000000;
  1000000; 1000000; 1000000; 1000000; 1000000; 1000000; 1000000; 1000000];
  [0; 0; 71707; 215000; 340203; 460884; 581565; 702246; 822927; 837622; 852317; 867012; 881707; 896402; 911098; 925793; 940488; 942988;
  945488; 947988; 950488; 952988; 955488; 957988; 960488; 963049; 965610; 968171; 970732; 973293; 975854; 978415; 980976; 983354; 985732;
  988110; 990488; 992866; 995244; 997622; 1000000; 1000000; 1000000; 1000000; 1000000; 1000000; 1000000; 1000000; 1000000; 1000000;
  1000000; 1000000; 1000000; 1000000; 1000000; 1000000; 1000000; 1000000; 1000000; 1000000; 1000000; 1000000; 1000000; 1000000; 1000000;
  1000000; 1000000; 1000000; 1000000; 1000000; 1000000; 1000000; 1000000; 1000000; 1000000; 1000000; 1000000; 1000000; 1000000; 1000000;
  1000000; 1000000; 1000000; 1000000; 1000000; 1000000; 1000000; 1000000; 1000000; 1000000; 1000000; 1000000; 1000000; 1000000; 1000000;
  1000000; 1000000; 1000000; 1000000; 1000000; 1000000; 1000000; 1000000; 1000000; 1000000; 1000000; 1000000; 1000000; 1000000; 1000000;
  1000000; 1000000; 1000000; 1000000; 1000000; 1000000; 1000000; 1000000; 1000000; 1000000; 1000000; 1000000; 1000000];
  [0; 0; 78914; 231907; 355928; 467531; 579135; 690739; 802343; 840377; 853888; 867398; 880909; 894420; 907930; 921441; 934952; 942919;
  945344; 947768; 950192; 952616; 955041; 957465; 959889; 962365; 964996; 967627; 970259; 972890; 975521; 978152; 980783; 983415; 985425;
  987435; 989446; 991456; 993466; 995477; 997487; 999497; 1000000; 1000000; 1000000; 1000000; 1000000; 1000000; 1000000; 1000000; 1000000;
  1000000; 1000000; 1000000; 1000000; 1000000; 1000000; 1000000; 1000000; 1000000; 1000000; 1000000; 1000000; 1000000; 1000000; 1000000;
  1000000; 1000000; 1000000; 1000000; 1000000; 1000000; 1000000; 1000000; 1000000; 1000000; 1000000; 1000000; 1000000; 1000000; 1000000;
  1000000; 1000000; 1000000; 1000000; 1000000; 1000000; 1000000; 1000000; 1000000; 1000000; 1000000; 1000000; 1000000; 1000000; 1000000;
  1000000; 1000000; 1000000; 1000000; 1000000; 1000000; 1000000; 1000000; 1000000; 1000000; 1000000; 1000000; 1000000; 1000000; 1000000;
  1000000; 1000000; 1000000; 1000000; 1000000; 1000000; 1000000; 1000000; 1000000; 1000000; 1000000; 1000000; 1000000];
  [0; 0; 84978; 247102; 373788; 476848; 579909; 682970; 786031; 843759; 856155; 868551; 880947; 893343; 905739; 918135; 930531; 942927;
  945280; 947633; 949986; 952339; 954692; 957044; 959397; 961750; 964275; 966973; 969670; 972367; 975065; 977762; 980459; 983156; 985854;
  987518; 989182; 990847; 992511; 994175; 995839; 997504; 999168; 1000000; 1000000; 1000000; 1000000; 1000000; 1000000; 1000000; 1000000;
  1000000; 1000000; 1000000; 1000000; 1000000; 1000000; 1000000; 1000000; 1000000; 1000000; 1000000; 1000000; 1000000; 1000000; 1000000;
  1000000; 1000000; 1000000; 1000000; 1000000; 1000000; 1000000; 1000000; 1000000; 1000000; 1000000; 1000000; 1000000; 1000000; 1000000;
  1000000; 1000000; 1000000; 1000000; 1000000; 1000000; 1000000; 1000000; 1000000; 1000000; 1000000; 1000000; 1000000; 1000000; 1000000;
  1000000; 1000000; 1000000; 1000000; 1000000; 1000000; 1000000; 1000000; 1000000; 1000000; 1000000; 1000000; 1000000; 1000000; 1000000;
  1000000; 1000000; 1000000; 1000000; 1000000; 1000000; 1000000; 1000000; 1000000; 1000000; 1000000; 1000000; 1000000; 1000000];
  [0; 0; 90000; 260732; 393600; 488606; 583612; 678618; 773624; 847714; 859059; 870404; 881749; 893094; 904439; 915784; 927129; 938474;
  945289; 947575; 949861; 952146; 954432; 956718; 959003; 961289; 963575; 966216; 968976; 971735; 974495; 977254; 980014; 982774; 985533;
  988293; 989631; 990969; 992307; 993645; 994983; 996321; 997659; 998996; 1000000; 1000000; 1000000; 1000000; 1000000; 1000000; 1000000;
  1000000; 1000000; 1000000; 1000000; 1000000; 1000000; 1000000; 1000000; 1000000; 1000000; 1000000; 1000000; 1000000; 1000000; 1000000;
  1000000; 1000000; 1000000; 1000000; 1000000; 1000000; 1000000; 1000000; 1000000; 1000000; 1000000; 1000000; 1000000; 1000000; 1000000;
  1000000; 1000000; 1000000; 1000000; 1000000; 1000000; 1000000; 1000000; 1000000; 1000000; 1000000; 1000000; 1000000; 1000000; 1000000;
  1000000; 1000000; 1000000; 1000000; 1000000; 1000000; 1000000; 1000000; 1000000; 1000000; 1000000; 1000000; 1000000; 1000000; 1000000;
  1000000; 1000000; 1000000; 1000000; 1000000; 1000000; 1000000; 1000000; 1000000; 1000000; 1000000; 1000000; 1000000; 1000000; 1000000];
  [0; 0; 94065; 272927; 415203; 502602; 590000; 677398; 764797; 852195; 862547; 872900; 883252; 893604; 903957; 914309; 924661; 935014;
  945366; 947588; 949810; 952033; 954255; 956477; 958699; 960921; 963144; 965366; 968184; 971003; 973821; 976640; 979458; 982276; 985095;
  987913; 990732; 991762; 992791; 993821; 994851; 995881; 996911; 997940; 998970; 1000000; 1000000; 1000000; 1000000; 1000000; 1000000;
  1000000; 1000000; 1000000; 1000000; 1000000; 1000000; 1000000; 1000000; 1000000; 1000000; 1000000; 1000000; 1000000; 1000000; 1000000;
  1000000; 1000000; 1000000; 1000000; 1000000; 1000000; 1000000; 1000000; 1000000; 1000000; 1000000; 1000000; 1000000; 1000000; 1000000;
  1000000; 1000000; 1000000; 1000000; 1000000; 1000000; 1000000; 1000000; 1000000; 1000000; 1000000; 1000000; 1000000; 1000000; 1000000;
  1000000; 1000000; 1000000; 1000000; 1000000; 1000000; 1000000; 1000000; 1000000; 1000000; 1000000; 1000000; 1000000; 1000000; 1000000;
  1000000; 1000000; 1000000; 1000000; 1000000; 1000000; 1000000; 1000000; 1000000; 1000000; 1000000; 1000000; 1000000; 1000000; 1000000;
  1000000];
  [0; 0; 97251; 283804; 438451; 518653; 598855; 679057; 759260; 839462; 866572; 875986; 885399; 894812; 904225; 913639; 923052; 932465;
  941879; 947666; 949829; 951991; 954153; 956315; 958477; 960639; 962802; 964964; 967304; 970178; 973052; 975926; 978800; 981674; 984548;
  987423; 990297; 993171; 993909; 994647; 995386; 996124; 996862; 997601; 998339; 999077; 999815; 1000000; 1000000; 1000000; 1000000;
  1000000; 1000000; 1000000; 1000000; 1000000; 1000000; 1000000; 1000000; 1000000; 1000000; 1000000; 1000000; 1000000; 1000000; 1000000;
  1000000; 1000000; 1000000; 1000000; 1000000; 1000000; 1000000; 1000000; 1000000; 1000000; 1000000; 1000000; 1000000; 1000000; 1000000;
  1000000; 1000000; 1000000; 1000000; 1000000; 1000000; 1000000; 1000000; 1000000; 1000000; 1000000; 1000000; 1000000; 1000000; 1000000;
  1000000; 1000000; 1000000; 1000000; 1000000; 1000000; 1000000; 1000000; 1000000; 1000000; 1000000; 1000000; 1000000; 1000000; 1000000;
  1000000; 1000000; 1000000; 1000000; 1000000; 1000000; 1000000; 1000000; 1000000; 1000000; 1000000; 1000000; 1000000; 1000000; 1000000;
  1000000; 1000000];
  [0; 0; 99628; 293466; 463214; 536598; 609983; 683368; 756752; 830137; 871091; 879615; 888139; 896662; 905186; 913710; 922234; 930757;
  939281; 947805; 949910; 952015; 954121; 956226; 958331; 960436; 962542; 964647; 966752; 969268; 972195; 975122; 978049; 980976; 983902;
  986829; 989756; 992683; 995610; 996072; 996534; 996996; 997458; 997920; 998383; 998845; 999307; 999769; 1000000; 1000000; 1000000;
  1000000; 1000000; 1000000; 1000000; 1000000; 1000000; 1000000; 1000000; 1000000; 1000000; 1000000; 1000000; 1000000; 1000000; 1000000;
  1000000; 1000000; 1000000; 1000000; 1000000; 1000000; 1000000; 1000000; 1000000; 1000000; 1000000; 1000000; 1000000; 1000000; 1000000;
  1000000; 1000000; 1000000; 1000000; 1000000; 1000000; 1000000; 1000000; 1000000; 1000000; 1000000; 1000000; 1000000; 1000000; 1000000;
  1000000; 1000000; 1000000; 1000000; 1000000; 1000000; 1000000; 1000000; 1000000; 1000000; 1000000; 1000000; 1000000; 1000000; 1000000;
  1000000; 1000000; 1000000; 1000000; 1000000; 1000000; 1000000; 1000000; 1000000; 1000000; 1000000; 1000000; 1000000; 1000000; 1000000;
  1000000; 1000000; 1000000];
  [0; 0; 101257; 302007; 489375; 556291; 623208; 690125; 757042; 823959; 876066; 883746; 891426; 899106; 906785; 914465; 922145; 929825;
  937505; 945184; 950050; 952101; 954153; 956204; 958255; 960306; 962358; 964409; 966460; 968512; 971257; 974234; 977211; 980188; 983164;
  986141; 989118; 992095; 995072; 998049; 998249; 998449; 998649; 998849; 999049; 999250; 999450; 999650; 999850; 1000000; 1000000;
  1000000; 1000000; 1000000; 1000000; 1000000; 1000000; 1000000; 1000000; 1000000; 1000000; 1000000; 1000000; 1000000; 1000000; 1000000;
  1000000; 1000000; 1000000; 1000000; 1000000; 1000000; 1000000; 1000000; 1000000; 1000000; 1000000; 1000000; 1000000; 1000000; 1000000;
  1000000; 1000000; 1000000; 1000000; 1000000; 1000000; 1000000; 1000000; 1000000; 1000000; 1000000; 1000000; 1000000; 1000000; 1000000;
  1000000; 1000000; 1000000; 1000000; 1000000; 1000000; 1000000; 1000000; 1000000; 1000000; 1000000; 1000000; 1000000; 1000000; 1000000;
  1000000; 1000000; 1000000; 1000000; 1000000; 1000000; 1000000; 1000000; 1000000; 1000000; 1000000; 1000000; 1000000; 1000000; 1000000;
  1000000; 1000000; 1000000; 1000000];
  [0; 0; 102718; 307816; 512913; 574191; 635469; 696748; 758026; 819304; 880583; 887563; 894544; 901524; 908505; 915485; 922466; 929447;
  936427; 943408; 950388; 952408; 954427; 956447; 958466; 960485; 962505; 964524; 966544; 968563; 970583; 973524; 976466; 979408; 982350;
  985291; 988233; 991175; 994116; 997058; 1000000; 1000000; 1000000; 1000000; 1000000; 1000000; 1000000; 1000000; 1000000; 1000000;
  1000000; 1000000; 1000000; 1000000; 1000000; 1000000; 1000000; 1000000; 1000000; 1000000; 1000000; 1000000; 1000000; 1000000; 1000000;
  1000000; 1000000; 1000000; 1000000; 1000000; 1000000; 1000000; 1000000; 1000000; 1000000; 1000000; 1000000; 1000000; 1000000; 1000000;
  1000000; 1000000; 1000000; 1000000; 1000000; 1000000; 1000000; 1000000; 1000000; 1000000; 1000000; 1000000; 1000000; 1000000; 1000000;
  1000000; 1000000; 1000000; 1000000; 1000000; 1000000; 1000000; 1000000; 1000000; 1000000; 1000000; 1000000; 1000000; 1000000; 1000000;
  1000000; 1000000; 1000000; 1000000; 1000000; 1000000; 1000000; 1000000; 1000000; 1000000; 1000000; 1000000; 1000000; 1000000; 1000000;
  1000000; 1000000; 1000000; 1000000; 1000000; 1000000];
  [0; 0; 0; 306851; 507419; 579576; 637465; 695355; 753244; 811134; 869023; 888532; 895247; 901963; 908679; 915394; 922110; 928825;
  935541; 942257; 948972; 953363; 955427; 957492; 959557; 961622; 963687; 965752; 967817; 969882; 971947; 974142; 976727; 979313; 981899;
  984485; 987071; 989657; 992243; 994828; 997414; 1000000; 1000000; 1000000; 1000000; 1000000; 1000000; 1000000; 1000000; 1000000;
  1000000; 1000000; 1000000; 1000000; 1000000; 1000000; 1000000; 1000000; 1000000; 1000000; 1000000; 1000000; 1000000; 1000000; 1000000;
  1000000; 1000000; 1000000; 1000000; 1000000; 1000000; 1000000; 1000000; 1000000; 1000000; 1000000; 1000000; 1000000; 1000000; 1000000;
  1000000; 1000000; 1000000; 1000000; 1000000; 1000000; 1000000; 1000000; 1000000; 1000000; 1000000; 1000000; 1000000; 1000000; 1000000;
  1000000; 1000000; 1000000; 1000000; 1000000; 1000000; 1000000; 1000000; 1000000; 1000000; 1000000; 1000000; 1000000; 1000000; 1000000;
  1000000; 1000000; 1000000; 1000000; 1000000; 1000000; 1000000; 1000000; 1000000; 1000000; 1000000; 1000000; 1000000; 1000000; 1000000;
  1000000; 1000000; 1000000; 1000000; 1000000; 1000000; 1000000];
  [0; 0; 0; 306533; 502788; 585768; 640430; 695092; 749753; 804415; 859077; 889639; 896103; 902566; 909029; 915492; 921956; 928419;
  934882; 941345; 947809; 954272; 956380; 958488; 960596; 962705; 964813; 966921; 969029; 971137; 973246; 975354; 977531; 979778; 982025;
  984272; 986519; 988766; 991012; 993259; 995506; 997753; 1000000; 1000000; 1000000; 1000000; 1000000; 1000000; 1000000; 1000000; 1000000;
  1000000; 1000000; 1000000; 1000000; 1000000; 1000000; 1000000; 1000000; 1000000; 1000000; 1000000; 1000000; 1000000; 1000000; 1000000;
  1000000; 1000000; 1000000; 1000000; 1000000; 1000000; 1000000; 1000000; 1000000; 1000000; 1000000; 1000000; 1000000; 1000000; 1000000;
  1000000; 1000000; 1000000; 1000000; 1000000; 1000000; 1000000; 1000000; 1000000; 1000000; 1000000; 1000000; 1000000; 1000000; 1000000;
  1000000; 1000000; 1000000; 1000000; 1000000; 1000000; 1000000; 1000000; 1000000; 1000000; 1000000; 1000000; 1000000; 1000000; 1000000;
  1000000; 1000000; 1000000; 1000000; 1000000; 1000000; 1000000; 1000000; 1000000; 1000000; 1000000; 1000000; 1000000; 1000000; 1000000;
  1000000; 1000000; 1000000; 1000000; 1000000; 1000000; 1000000];
  [0; 0; 0; 306816; 498959; 592711; 644295; 695879; 747464; 799048; 850632; 890876; 897099; 903321; 909544; 915767; 921989; 928212;
  934434; 940657; 946880; 953102; 957288; 959438; 961587; 963737; 965886; 968036; 970185; 972335; 974484; 976634; 978783; 980763; 982687;
  984611; 986534; 988458; 990382; 992305; 994229; 996153; 998076; 1000000; 1000000; 1000000; 1000000; 1000000; 1000000; 1000000; 1000000;
  1000000; 1000000; 1000000; 1000000; 1000000; 1000000; 1000000; 1000000; 1000000; 1000000; 1000000; 1000000; 1000000; 1000000; 1000000;
  1000000; 1000000; 1000000; 1000000; 1000000; 1000000; 1000000; 1000000; 1000000; 1000000; 1000000; 1000000; 1000000; 1000000; 1000000;
  1000000; 1000000; 1000000; 1000000; 1000000; 1000000; 1000000; 1000000; 1000000; 1000000; 1000000; 1000000; 1000000; 1000000; 1000000;
  1000000; 1000000; 1000000; 1000000; 1000000; 1000000; 1000000; 1000000; 1000000; 1000000; 1000000; 1000000; 1000000; 1000000; 1000000;
  1000000; 1000000; 1000000; 1000000; 1000000; 1000000; 1000000; 1000000; 1000000; 1000000; 1000000; 1000000; 1000000; 1000000; 1000000;
  1000000; 1000000; 1000000; 1000000; 1000000; 1000000; 1000000; 1000000];
  [0; 0; 0; 307661; 495878; 600353; 649000; 697646; 746293; 794940; 843586; 892233; 898226; 904219; 910212; 916205; 922198; 928191;
  934184; 940177; 946169; 952162; 958155; 960344; 962533; 964722; 966911; 969100; 971289; 973478; 975666; 977855; 980044; 982233; 983848;
  985463; 987079; 988694; 990309; 991924; 993539; 995154; 996770; 998385; 1000000; 1000000; 1000000; 1000000; 1000000; 1000000; 1000000;
  1000000; 1000000; 1000000; 1000000; 1000000; 1000000; 1000000; 1000000; 1000000; 1000000; 1000000; 1000000; 1000000; 1000000; 1000000;
  1000000; 1000000; 1000000; 1000000; 1000000; 1000000; 1000000; 1000000; 1000000; 1000000; 1000000; 1000000; 1000000; 1000000; 1000000;
  1000000; 1000000; 1000000; 1000000; 1000000; 1000000; 1000000; 1000000; 1000000; 1000000; 1000000; 1000000; 1000000; 1000000; 1000000;
  1000000; 1000000; 1000000; 1000000; 1000000; 1000000; 1000000; 1000000; 1000000; 1000000; 1000000; 1000000; 1000000; 1000000; 1000000;
  1000000; 1000000; 1000000; 1000000; 1000000; 1000000; 1000000; 1000000; 1000000; 1000000; 1000000; 1000000; 1000000; 1000000; 1000000;
  1000000; 1000000; 1000000; 1000000; 1000000; 1000000; 1000000; 1000000; 1000000];
  [0; 0; 0; 309029; 493495; 608648; 654488; 700327; 746167; 792006; 837846; 883686; 899476; 905249; 911023; 916796; 922570; 928343;
  934116; 939890; 945663; 951437; 957210; 961210; 963437; 965663; 967890; 970116; 972343; 974570; 976796; 979023; 981249; 983476; 985476;
  986796; 988117; 989437; 990757; 992078; 993398; 994718; 996039; 997359; 998680; 1000000; 1000000; 1000000; 1000000; 1000000; 1000000;
  1000000; 1000000; 1000000; 1000000; 1000000; 1000000; 1000000; 1000000; 1000000; 1000000; 1000000; 1000000; 1000000; 1000000; 1000000;
  1000000; 1000000; 1000000; 1000000; 1000000; 1000000; 1000000; 1000000; 1000000; 1000000; 1000000; 1000000; 1000000; 1000000; 1000000;
  1000000; 1000000; 1000000; 1000000; 1000000; 1000000; 1000000; 1000000; 1000000; 1000000; 1000000; 1000000; 1000000; 1000000; 1000000;
  1000000; 1000000; 1000000; 1000000; 1000000; 1000000; 1000000; 1000000; 1000000; 1000000; 1000000; 1000000; 1000000; 1000000; 1000000;
  1000000; 1000000; 1000000; 1000000; 1000000; 1000000; 1000000; 1000000; 1000000; 1000000; 1000000; 1000000; 1000000; 1000000; 1000000;
  1000000; 1000000; 1000000; 1000000; 1000000; 1000000; 1000000; 1000000; 1000000; 1000000];
  [0; 0; 0; 310886; 491764; 617553; 660708; 703862; 747017; 790172; 833326; 876481; 900840; 906404; 911967; 917531; 923094; 928658;
  934221; 939785; 945348; 950912; 956475; 962039; 964301; 966564; 968827; 971089; 973352; 975614; 977877; 980139; 982402; 984664; 986927;
  988577; 989616; 990654; 991693; 992731; 993770; 994808; 995846; 996885; 997923; 998962; 1000000; 1000000; 1000000; 1000000; 1000000;
  1000000; 1000000; 1000000; 1000000; 1000000; 1000000; 1000000; 1000000; 1000000; 1000000; 1000000; 1000000; 1000000; 1000000; 1000000;
  1000000; 1000000; 1000000; 1000000; 1000000; 1000000; 1000000; 1000000; 1000000; 1000000; 1000000; 1000000; 1000000; 1000000; 1000000;
  1000000; 1000000; 1000000; 1000000; 1000000; 1000000; 1000000; 1000000; 1000000; 1000000; 1000000; 1000000; 1000000; 1000000; 1000000;
  1000000; 1000000; 1000000; 1000000; 1000000; 1000000; 1000000; 1000000; 1000000; 1000000; 1000000; 1000000; 1000000; 1000000; 1000000;
  1000000; 1000000; 1000000; 1000000; 1000000; 1000000; 1000000; 1000000; 1000000; 1000000; 1000000; 1000000; 1000000; 1000000; 1000000;
  1000000; 1000000; 1000000; 1000000; 1000000; 1000000; 1000000; 1000000; 1000000; 1000000; 1000000];
  [0; 0; 0; 313202; 490645; 627030; 667613; 708197; 748781; 789365; 829949; 870533; 902312; 907674; 913037; 918399; 923762; 929124;
  934487; 939849; 945212; 950574; 955937; 961299; 965129; 967426; 969723; 972020; 974317; 976614; 978911; 981208; 983505; 985803; 988100;
  990397; 991547; 992316; 993084; 993853; 994621; 995389; 996158; 996926; 997695; 998463; 999232; 1000000; 1000000; 1000000; 1000000;
  1000000; 1000000; 1000000; 1000000; 1000000; 1000000; 1000000; 1000000; 1000000; 1000000; 1000000; 1000000; 1000000; 1000000; 1000000;
  1000000; 1000000; 1000000; 1000000; 1000000; 1000000; 1000000; 1000000; 1000000; 1000000; 1000000; 1000000; 1000000; 1000000; 1000000;
  1000000; 1000000; 1000000; 1000000; 1000000; 1000000; 1000000; 1000000; 1000000; 1000000; 1000000; 1000000; 1000000; 1000000; 1000000;
  1000000; 1000000; 1000000; 1000000; 1000000; 1000000; 1000000; 1000000; 1000000; 1000000; 1000000; 1000000; 1000000; 1000000; 1000000;
  1000000; 1000000; 1000000; 1000000; 1000000; 1000000; 1000000; 1000000; 1000000; 1000000; 1000000; 1000000; 1000000; 1000000; 1000000;
  1000000; 1000000; 1000000; 1000000; 1000000; 1000000; 1000000; 1000000; 1000000; 1000000; 1000000; 1000000];
  [0; 0; 0; 315947; 490097; 637042; 675162; 713282; 751402; 789523; 827643; 865763; 903884; 909053; 914223; 919393; 924563; 929733;
  934903; 940073; 945243; 950413; 955583; 960752; 965922; 968252; 970583; 972913; 975243; 977573; 979903; 982233; 984563; 986893; 989223;
  991553; 993883; 994393; 994903; 995413; 995922; 996432; 996942; 997451; 997961; 998471; 998981; 999490; 1000000; 1000000; 1000000;
  1000000; 1000000; 1000000; 1000000; 1000000; 1000000; 1000000; 1000000; 1000000; 1000000; 1000000; 1000000; 1000000; 1000000; 1000000;
  1000000; 1000000; 1000000; 1000000; 1000000; 1000000; 1000000; 1000000; 1000000; 1000000; 1000000; 1000000; 1000000; 1000000; 1000000;
  1000000; 1000000; 1000000; 1000000; 1000000; 1000000; 1000000; 1000000; 1000000; 1000000; 1000000; 1000000; 1000000; 1000000; 1000000;
  1000000; 1000000; 1000000; 1000000; 1000000; 1000000; 1000000; 1000000; 1000000; 1000000; 1000000; 1000000; 1000000; 1000000; 1000000;
  1000000; 1000000; 1000000; 1000000; 1000000; 1000000; 1000000; 1000000; 1000000; 1000000; 1000000; 1000000; 1000000; 1000000; 1000000;
  1000000; 1000000; 1000000; 1000000; 1000000; 1000000; 1000000; 1000000; 1000000; 1000000; 1000000; 1000000; 1000000];
  [0; 0; 0; 319095; 490087; 647556; 683314; 719071; 754828; 790585; 826342; 862100; 897857; 910535; 915520; 920505; 925490; 930476;
  935461; 940446; 945431; 950416; 955401; 960386; 965372; 969045; 971407; 973769; 976130; 978492; 980854; 983216; 985578; 987939; 990301;
  992663; 995025; 996862; 997123; 997385; 997646; 997908; 998169; 998431; 998692; 998954; 999215; 999477; 999738; 1000000; 1000000;
  1000000; 1000000; 1000000; 1000000; 1000000; 1000000; 1000000; 1000000; 1000000; 1000000; 1000000; 1000000; 1000000; 1000000; 1000000;
  1000000; 1000000; 1000000; 1000000; 1000000; 1000000; 1000000; 1000000; 1000000; 1000000; 1000000; 1000000; 1000000; 1000000; 1000000;
  1000000; 1000000; 1000000; 1000000; 1000000; 1000000; 1000000; 1000000; 1000000; 1000000; 1000000; 1000000; 1000000; 1000000; 1000000;
  1000000; 1000000; 1000000; 1000000; 1000000; 1000000; 1000000; 1000000; 1000000; 1000000; 1000000; 1000000; 1000000; 1000000; 1000000;
  1000000; 1000000; 1000000; 1000000; 1000000; 1000000; 1000000; 1000000; 1000000; 1000000; 1000000; 1000000; 1000000; 1000000; 1000000;
  1000000; 1000000; 1000000; 1000000; 1000000; 1000000; 1000000; 1000000; 1000000; 1000000; 1000000; 1000000; 1000000; 1000000];
  [0; 0; 0; 322621; 490583; 658544; 692032; 725521; 759010; 792498; 825987; 859476; 892964; 912113; 916920; 921728; 926536; 931344;
  936151; 940959; 945767; 950575; 955383; 960190; 964998; 969806; 972198; 974590; 976983; 979375; 981767; 984159; 986551; 988944; 991336;
  993728; 996120; 998513; 999720; 999744; 999767; 999790; 999814; 999837; 999860; 999883; 999907; 999930; 999953; 999977; 1000000;
  1000000; 1000000; 1000000; 1000000; 1000000; 1000000; 1000000; 1000000; 1000000; 1000000; 1000000; 1000000; 1000000; 1000000; 1000000;
  1000000; 1000000; 1000000; 1000000; 1000000; 1000000; 1000000; 1000000; 1000000; 1000000; 1000000; 1000000; 1000000; 1000000; 1000000;
  1000000; 1000000; 1000000; 1000000; 1000000; 1000000; 1000000; 1000000; 1000000; 1000000; 1000000; 1000000; 1000000; 1000000; 1000000;
  1000000; 1000000; 1000000; 1000000; 1000000; 1000000; 1000000; 1000000; 1000000; 1000000; 1000000; 1000000; 1000000; 1000000; 1000000;
  1000000; 1000000; 1000000; 1000000; 1000000; 1000000; 1000000; 1000000; 1000000; 1000000; 1000000; 1000000; 1000000; 1000000; 1000000;
  1000000; 1000000; 1000000; 1000000; 1000000; 1000000; 1000000; 1000000; 1000000; 1000000; 1000000; 1000000; 1000000; 1000000; 1000000];
  [0; 0; 0; 344118; 502763; 661408; 705401; 736655; 767909; 799162; 830416; 861670; 892923; 917469; 921889; 926310; 930731; 935152;
  939572; 943993; 948414; 952834; 957255; 961676; 966096; 970517; 973797; 975936; 978075; 980214; 982353; 984492; 986631; 988770; 990909;
  993048; 995187; 997326; 999465; 1000000; 1000000; 1000000; 1000000; 1000000; 1000000; 1000000; 1000000; 1000000; 1000000; 1000000;
  1000000; 1000000; 1000000; 1000000; 1000000; 1000000; 1000000; 1000000; 1000000; 1000000; 1000000; 1000000; 1000000; 1000000; 1000000;
  1000000; 1000000; 1000000; 1000000; 1000000; 1000000; 1000000; 1000000; 1000000; 1000000; 1000000; 1000000; 1000000; 1000000; 1000000;
  1000000; 1000000; 1000000; 1000000; 1000000; 1000000; 1000000; 1000000; 1000000; 1000000; 1000000; 1000000; 1000000; 1000000; 1000000;
  1000000; 1000000; 1000000; 1000000; 1000000; 1000000; 1000000; 1000000; 1000000; 1000000; 1000000; 1000000; 1000000; 1000000; 1000000;
  1000000; 1000000; 1000000; 1000000; 1000000; 1000000; 1000000; 1000000; 1000000; 1000000; 1000000; 1000000; 1000000; 1000000; 1000000;
  1000000; 1000000; 1000000; 1000000; 1000000; 1000000; 1000000; 1000000; 1000000; 1000000; 1000000; 1000000; 1000000; 1000000; 1000000;
  1000000; 1000000];
  [0; 0; 0; 368687; 517677; 666667; 719744; 748842; 777941; 807040; 836138; 865237; 894336; 923434; 927459; 931484; 935509; 939534;
  943559; 947584; 951608; 955633; 959658; 963683; 967708; 971733; 975758; 977622; 979487; 981352; 983217; 985082; 986946; 988811; 990676;
  992541; 994406; 996270; 998135; 1000000; 1000000; 1000000; 1000000; 1000000; 1000000; 1000000; 1000000; 1000000; 1000000; 1000000;
  1000000; 1000000; 1000000; 1000000; 1000000; 1000000; 1000000; 1000000; 1000000; 1000000; 1000000; 1000000; 1000000; 1000000; 1000000;
  1000000; 1000000; 1000000; 1000000; 1000000; 1000000; 1000000; 1000000; 1000000; 1000000; 1000000; 1000000; 1000000; 1000000; 1000000;
  1000000; 1000000; 1000000; 1000000; 1000000; 1000000; 1000000; 1000000; 1000000; 1000000; 1000000; 1000000; 1000000; 1000000; 1000000;
  1000000; 1000000; 1000000; 1000000; 1000000; 1000000; 1000000; 1000000; 1000000; 1000000; 1000000; 1000000; 1000000; 1000000; 1000000;
  1000000; 1000000; 1000000; 1000000; 1000000; 1000000; 1000000; 1000000; 1000000; 1000000; 1000000; 1000000; 1000000; 1000000; 1000000;
  1000000; 1000000; 1000000; 1000000; 1000000; 1000000; 1000000; 1000000; 1000000; 1000000; 1000000; 1000000; 1000000; 1000000; 1000000;
  1000000; 1000000; 1000000];
  [0; 0; 0; 394349; 534048; 673747; 734574; 761599; 788624; 815649; 842674; 869699; 896724; 923749; 933238; 936882; 940526; 944170;
  947814; 951458; 955102; 958746; 962390; 966034; 969678; 973322; 976966; 979588; 981189; 982790; 984391; 985992; 987593; 989194; 990795;
  992396; 993997; 995597; 997198; 998799; 1000000; 1000000; 1000000; 1000000; 1000000; 1000000; 1000000; 1000000; 1000000; 1000000;
  1000000; 1000000; 1000000; 1000000; 1000000; 1000000; 1000000; 1000000; 1000000; 1000000; 1000000; 1000000; 1000000; 1000000; 1000000;
  1000000; 1000000; 1000000; 1000000; 1000000; 1000000; 1000000; 1000000; 1000000; 1000000; 1000000; 1000000; 1000000; 1000000; 1000000;
  1000000; 1000000; 1000000; 1000000; 1000000; 1000000; 1000000; 1000000; 1000000; 1000000; 1000000; 1000000; 1000000; 1000000; 1000000;
  1000000; 1000000; 1000000; 1000000; 1000000; 1000000; 1000000; 1000000; 1000000; 1000000; 1000000; 1000000; 1000000; 1000000; 1000000;
  1000000; 1000000; 1000000; 1000000; 1000000; 1000000; 1000000; 1000000; 1000000; 1000000; 1000000; 1000000; 1000000; 1000000; 1000000;
  1000000; 1000000; 1000000; 1000000; 1000000; 1000000; 1000000; 1000000; 1000000; 1000000; 1000000; 1000000; 1000000; 1000000; 1000000;
  1000000; 1000000; 1000000; 1000000];
  [0; 0; 0; 421044; 551796; 682548; 749865; 774893; 799921; 824950; 849978; 875006; 900034; 925062; 939214; 942492; 945769; 949046;
  952323; 955600; 958878; 962155; 965432; 968709; 971987; 975264; 978541; 981818; 983165; 984512; 985859; 987205; 988552; 989899; 991246;
  992593; 993939; 995286; 996633; 997980; 999327; 1000000; 1000000; 1000000; 1000000; 1000000; 1000000; 1000000; 1000000; 1000000;
  1000000; 1000000; 1000000; 1000000; 1000000; 1000000; 1000000; 1000000; 1000000; 1000000; 1000000; 1000000; 1000000; 1000000; 1000000;
  1000000; 1000000; 1000000; 1000000; 1000000; 1000000; 1000000; 1000000; 1000000; 1000000; 1000000; 1000000; 1000000; 1000000; 1000000;
  1000000; 1000000; 1000000; 1000000; 1000000; 1000000; 1000000; 1000000; 1000000; 1000000; 1000000; 1000000; 1000000; 1000000; 1000000;
  1000000; 1000000; 1000000; 1000000; 1000000; 1000000; 1000000; 1000000; 1000000; 1000000; 1000000; 1000000; 1000000; 1000000; 1000000;
  1000000; 1000000; 1000000; 1000000; 1000000; 1000000; 1000000; 1000000; 1000000; 1000000; 1000000; 1000000; 1000000; 1000000; 1000000;
  1000000; 1000000; 1000000; 1000000; 1000000; 1000000; 1000000; 1000000; 1000000; 1000000; 1000000; 1000000; 1000000; 1000000; 1000000;
  1000000; 1000000; 1000000; 1000000; 1000000];
  [0; 0; 0; 448714; 570845; 692975; 765592; 788696; 811800; 834904; 858007; 881111; 904215; 927319; 945377; 948301; 951225; 954149;
  957073; 959996; 962920; 965844; 968768; 971691; 974615; 977539; 980463; 983387; 985399; 986501; 987603; 988705; 989807; 990909; 992011;
  993113; 994215; 995317; 996419; 997521; 998623; 999725; 1000000; 1000000; 1000000; 1000000; 1000000; 1000000; 1000000; 1000000; 1000000;
  1000000; 1000000; 1000000; 1000000; 1000000; 1000000; 1000000; 1000000; 1000000; 1000000; 1000000; 1000000; 1000000; 1000000; 1000000;
  1000000; 1000000; 1000000; 1000000; 1000000; 1000000; 1000000; 1000000; 1000000; 1000000; 1000000; 1000000; 1000000; 1000000; 1000000;
  1000000; 1000000; 1000000; 1000000; 1000000; 1000000; 1000000; 1000000; 1000000; 1000000; 1000000; 1000000; 1000000; 1000000; 1000000;
  1000000; 1000000; 1000000; 1000000; 1000000; 1000000; 1000000; 1000000; 1000000; 1000000; 1000000; 1000000; 1000000; 1000000; 1000000;
  1000000; 1000000; 1000000; 1000000; 1000000; 1000000; 1000000; 1000000; 1000000; 1000000; 1000000; 1000000; 1000000; 1000000; 1000000;
  1000000; 1000000; 1000000; 1000000; 1000000; 1000000; 1000000; 1000000; 1000000; 1000000; 1000000; 1000000; 1000000; 1000000; 1000000;
  1000000; 1000000; 1000000; 1000000; 1000000];
  [0; 0; 0; 477309; 591126; 704942; 781732; 802980; 824228; 845476; 866724; 887973; 909221; 930469; 951717; 954300; 956883; 959466;
  962049; 964632; 967215; 969798; 972381; 974964; 977547; 980130; 982713; 985296; 987879; 988745; 989610; 990476; 991342; 992208; 993074;
  993939; 994805; 995671; 996537; 997403; 998268; 999134; 1000000; 1000000; 1000000; 1000000; 1000000; 1000000; 1000000; 1000000; 1000000;
  1000000; 1000000; 1000000; 1000000; 1000000; 1000000; 1000000; 1000000; 1000000; 1000000; 1000000; 1000000; 1000000; 1000000; 1000000;
  1000000; 1000000; 1000000; 1000000; 1000000; 1000000; 1000000; 1000000; 1000000; 1000000; 1000000; 1000000; 1000000; 1000000; 1000000;
  1000000; 1000000; 1000000; 1000000; 1000000; 1000000; 1000000; 1000000; 1000000; 1000000; 1000000; 1000000; 1000000; 1000000; 1000000;
  1000000; 1000000; 1000000; 1000000; 1000000; 1000000; 1000000; 1000000; 1000000; 1000000; 1000000; 1000000; 1000000; 1000000; 1000000;
  1000000; 1000000; 1000000; 1000000; 1000000; 1000000; 1000000; 1000000; 1000000; 1000000; 1000000; 1000000; 1000000; 1000000; 1000000;
  1000000; 1000000; 1000000; 1000000; 1000000; 1000000; 1000000; 1000000; 1000000; 1000000; 1000000; 1000000; 1000000; 1000000; 1000000;
  1000000; 1000000; 1000000; 1000000; 1000000; 1000000];
  [0; 0; 0; 506778; 612573; 718368; 798262; 817719; 837177; 856635; 876093; 895550; 915008; 934466; 953923; 960478; 962733; 964987;
  967241; 969495; 971749; 974003; 976257; 978511; 980766; 983020; 985274; 987528; 989782; 991228; 991866; 992504; 993142; 993780; 994418;
  995056; 995694; 996332; 996970; 997608; 998246; 998884; 999522; 1000000; 1000000; 1000000; 1000000; 1000000; 1000000; 1000000; 1000000;
  1000000; 1000000; 1000000; 1000000; 1000000; 1000000; 1000000; 1000000; 1000000; 1000000; 1000000; 1000000; 1000000; 1000000; 1000000;
  1000000; 1000000; 1000000; 1000000; 1000000; 1000000; 1000000; 1000000; 1000000; 1000000; 1000000; 1000000; 1000000; 1000000; 1000000;
  1000000; 1000000; 1000000; 1000000; 1000000; 1000000; 1000000; 1000000; 1000000; 1000000; 1000000; 1000000; 1000000; 1000000; 1000000;
  1000000; 1000000; 1000000; 1000000; 1000000; 1000000; 1000000; 1000000; 1000000; 1000000; 1000000; 1000000; 1000000; 1000000; 1000000;
  1000000; 1000000; 1000000; 1000000; 1000000; 1000000; 1000000; 1000000; 1000000; 1000000; 1000000; 1000000; 1000000; 1000000; 1000000;
  1000000; 1000000; 1000000; 1000000; 1000000; 1000000; 1000000; 1000000; 1000000; 1000000; 1000000; 1000000; 1000000; 1000000; 1000000;
  1000000; 1000000; 1000000; 1000000; 1000000; 1000000; 1000000];
  [0; 0; 0; 537078; 635127; 733177; 815162; 832891; 850620; 868349; 886078; 903807; 921536; 939265; 956994; 966827; 968763; 970700;
  972637; 974573; 976510; 978447; 980383; 982320; 984256; 986193; 988130; 990066; 992003; 993939; 994357; 994775; 995193; 995611; 996029;
  996447; 996865; 997283; 997701; 998119; 998537; 998955; 999373; 999791; 1000000; 1000000; 1000000; 1000000; 1000000; 1000000; 1000000;
  1000000; 1000000; 1000000; 1000000; 1000000; 1000000; 1000000; 1000000; 1000000; 1000000; 1000000; 1000000; 1000000; 1000000; 1000000;
  1000000; 1000000; 1000000; 1000000; 1000000; 1000000; 1000000; 1000000; 1000000; 1000000; 1000000; 1000000; 1000000; 1000000; 1000000;
  1000000; 1000000; 1000000; 1000000; 1000000; 1000000; 1000000; 1000000; 1000000; 1000000; 1000000; 1000000; 1000000; 1000000; 1000000;
  1000000; 1000000; 1000000; 1000000; 1000000; 1000000; 1000000; 1000000; 1000000; 1000000; 1000000; 1000000; 1000000; 1000000; 1000000;
  1000000; 1000000; 1000000; 1000000; 1000000; 1000000; 1000000; 1000000; 1000000; 1000000; 1000000; 1000000; 1000000; 1000000; 1000000;
  1000000; 1000000; 1000000; 1000000; 1000000; 1000000; 1000000; 1000000; 1000000; 1000000; 1000000; 1000000; 1000000; 1000000; 1000000;
  1000000; 1000000; 1000000; 1000000; 1000000; 1000000; 1000000; 1000000];
  [0; 0; 0; 568165; 658731; 749298; 832414; 848473; 864532; 880591; 896650; 912708; 928767; 944826; 960885; 973337; 974967; 976596;
  978226; 979856; 981486; 983116; 984746; 986376; 988005; 989635; 991265; 992895; 994525; 996155; 997072; 997278; 997483; 997689; 997894;
  998100; 998305; 998511; 998716; 998921; 999127; 999332; 999538; 999743; 999949; 1000000; 1000000; 1000000; 1000000; 1000000; 1000000;
  1000000; 1000000; 1000000; 1000000; 1000000; 1000000; 1000000; 1000000; 1000000; 1000000; 1000000; 1000000; 1000000; 1000000; 1000000;
  1000000; 1000000; 1000000; 1000000; 1000000; 1000000; 1000000; 1000000; 1000000; 1000000; 1000000; 1000000; 1000000; 1000000; 1000000;
  1000000; 1000000; 1000000; 1000000; 1000000; 1000000; 1000000; 1000000; 1000000; 1000000; 1000000; 1000000; 1000000; 1000000; 1000000;
  1000000; 1000000; 1000000; 1000000; 1000000; 1000000; 1000000; 1000000; 1000000; 1000000; 1000000; 1000000; 1000000; 1000000; 1000000;
  1000000; 1000000; 1000000; 1000000; 1000000; 1000000; 1000000; 1000000; 1000000; 1000000; 1000000; 1000000; 1000000; 1000000; 1000000;
  1000000; 1000000; 1000000; 1000000; 1000000; 1000000; 1000000; 1000000; 1000000; 1000000; 1000000; 1000000; 1000000; 1000000; 1000000;
  1000000; 1000000; 1000000; 1000000; 1000000; 1000000; 1000000; 1000000; 1000000];
  [0; 0; 0; 600000; 683333; 766667; 850000; 864444; 878889; 893333; 907778; 922222; 936667; 951111; 965556; 980000; 981333; 982667;
  984000; 985333; 986667; 988000; 989333; 990667; 992000; 993333; 994667; 996000; 997333; 998667; 1000000; 1000000; 1000000; 1000000;
  1000000; 1000000; 1000000; 1000000; 1000000; 1000000; 1000000; 1000000; 1000000; 1000000; 1000000; 1000000; 1000000; 1000000; 1000000;
  1000000; 1000000; 1000000; 1000000; 1000000; 1000000; 1000000; 1000000; 1000000; 1000000; 1000000; 1000000; 1000000; 1000000; 1000000;
  1000000; 1000000; 1000000; 1000000; 1000000; 1000000; 1000000; 1000000; 1000000; 1000000; 1000000; 1000000; 1000000; 1000000; 1000000;
  1000000; 1000000; 1000000; 1000000; 1000000; 1000000; 1000000; 1000000; 1000000; 1000000; 1000000; 1000000; 1000000; 1000000; 1000000;
  1000000; 1000000; 1000000; 1000000; 1000000; 1000000; 1000000; 1000000; 1000000; 1000000; 1000000; 1000000; 1000000; 1000000; 1000000;
  1000000; 1000000; 1000000; 1000000; 1000000; 1000000; 1000000; 1000000; 1000000; 1000000; 1000000; 1000000; 1000000; 1000000; 1000000;
  1000000; 1000000; 1000000; 1000000; 1000000; 1000000; 1000000; 1000000; 1000000; 1000000; 1000000; 1000000; 1000000; 1000000; 1000000;
  1000000; 1000000; 1000000; 1000000; 1000000; 1000000; 1000000; 1000000; 1000000; 1000000; 1000000; 1000000];
  [0; 0; 0; 600000; 683333; 766667; 850000; 864444; 878889; 893333; 907778; 922222; 936667; 951111; 965556; 980000; 981333; 982667;
  984000; 985333; 986667; 988000; 989333; 990667; 992000; 993333; 994667; 996000; 997333; 998667; 1000000; 1000000; 1000000; 1000000;
  1000000; 1000000; 1000000; 1000000; 1000000; 1000000; 1000000; 1000000; 1000000; 1000000; 1000000; 1000000; 1000000; 1000000; 1000000;
  1000000; 1000000; 1000000; 1000000; 1000000; 1000000; 1000000; 1000000; 1000000; 1000000; 1000000; 1000000; 1000000; 1000000; 1000000;
  1000000; 1000000; 1000000; 1000000; 1000000; 1000000; 1000000; 1000000; 1000000; 1000000; 1000000; 1000000; 1000000; 1000000; 1000000;
  1000000; 1000000; 1000000; 1000000; 1000000; 1000000; 1000000; 1000000; 1000000; 1000000; 1000000; 1000000; 1000000; 1000000; 1000000;
  1000000; 1000000; 1000000; 1000000; 1000000; 1000000; 1000000; 1000000; 1000000; 1000000; 1000000; 1000000; 1000000; 1000000; 1000000;
  1000000; 1000000; 1000000; 1000000; 1000000; 1000000; 1000000; 1000000; 1000000; 1000000; 1000000; 1000000; 1000000; 1000000; 1000000;
  1000000; 1000000; 1000000; 1000000; 1000000; 1000000; 1000000; 1000000; 1000000; 1000000; 1000000; 1000000; 1000000; 1000000; 1000000;
  1000000; 1000000; 1000000; 1000000; 1000000; 1000000; 1000000; 1000000; 1000000; 1000000; 1000000; 1000000; 1000000];
  [0; 0; 0; 600000; 683333; 766667; 850000; 864444; 878889; 893333; 907778; 922222; 936667; 951111; 965556; 980000; 981333; 982667;
  984000; 985333; 986667; 988000; 989333; 990667; 992000; 993333; 994667; 996000; 997333; 998667; 1000000; 1000000; 1000000; 1000000;
  1000000; 1000000; 1000000; 1000000; 1000000; 1000000; 1000000; 1000000; 1000000; 1000000; 1000000; 1000000; 1000000; 1000000; 1000000;
  1000000; 1000000; 1000000; 1000000; 1000000; 1000000; 1000000; 1000000; 1000000; 1000000; 1000000; 1000000; 1000000; 1000000; 1000000;
  1000000; 1000000; 1000000; 1000000; 1000000; 1000000; 1000000; 1000000; 1000000; 1000000; 1000000; 1000000; 1000000; 1000000; 1000000;
  1000000; 1000000; 1000000; 1000000; 1000000; 1000000; 1000000; 1000000; 1000000; 1000000; 1000000; 1000000; 1000000; 1000000; 1000000;
  1000000; 1000000; 1000000; 1000000; 1000000; 1000000; 1000000; 1000000; 1000000; 1000000; 1000000; 1000000; 1000000; 1000000; 1000000;
  1000000; 1000000; 1000000; 1000000; 1000000; 1000000; 1000000; 1000000; 1000000; 1000000; 1000000; 1000000; 1000000; 1000000; 1000000;
  1000000; 1000000; 1000000; 1000000; 1000000; 1000000; 1000000; 1000000; 1000000; 1000000; 1000000; 1000000; 1000000; 1000000; 1000000;
  1000000; 1000000; 1000000; 1000000; 1000000; 1000000; 1000000; 1000000; 1000000; 1000000; 1000000; 1000000; 1000000; 1000000];
  [0; 0; 0; 600000; 683333; 766667; 850000; 864444; 878889; 893333; 907778; 922222; 936667; 951111; 965556; 980000; 981333; 982667;
  984000; 985333; 986667; 988000; 989333; 990667; 992000; 993333; 994667; 996000; 997333; 998667; 1000000; 1000000; 1000000; 1000000;
  1000000; 1000000; 1000000; 1000000; 1000000; 1000000; 1000000; 1000000; 1000000; 1000000; 1000000; 1000000; 1000000; 1000000; 1000000;
  1000000; 1000000; 1000000; 1000000; 1000000; 1000000; 1000000; 1000000; 1000000; 1000000; 1000000; 1000000; 1000000; 1000000; 1000000;
  1000000; 1000000; 1000000; 1000000; 1000000; 1000000; 1000000; 1000000; 1000000; 1000000; 1000000; 1000000; 1000000; 1000000; 1000000;
  1000000; 1000000; 1000000; 1000000; 1000000; 1000000; 1000000; 1000000; 1000000; 1000000; 1000000; 1000000; 1000000; 1000000; 1000000;
  1000000; 1000000; 1000000; 1000000; 1000000; 1000000; 1000000; 1000000; 1000000; 1000000; 1000000; 1000000; 1000000; 1000000; 1000000;
  1000000; 1000000; 1000000; 1000000; 1000000; 1000000; 1000000; 1000000; 1000000; 1000000; 1000000; 1000000; 1000000; 1000000; 1000000;
  1000000; 1000000; 1000000; 1000000; 1000000; 1000000; 1000000; 1000000; 1000000; 1000000; 1000000; 1000000; 1000000; 1000000; 1000000;
  1000000; 1000000; 1000000; 1000000; 1000000; 1000000; 1000000; 1000000; 1000000; 1000000; 1000000; 1000000; 1000000; 1000000; 1000000];
  [0; 0; 0; 600000; 683333; 766667; 850000; 864444; 878889; 893333; 907778; 922222; 936667; 951111; 965556; 980000; 981333; 982667;
  984000; 985333; 986667; 988000; 989333; 990667; 992000; 993333; 994667; 996000; 997333; 998667; 1000000; 1000000; 1000000; 1000000;
  1000000; 1000000; 1000000; 1000000; 1000000; 1000000; 1000000; 1000000; 1000000; 1000000; 1000000; 1000000; 1000000; 1000000; 1000000;
  1000000; 1000000; 1000000; 1000000; 1000000; 1000000; 1000000; 1000000; 1000000; 1000000; 1000000; 1000000; 1000000; 1000000; 1000000;
  1000000; 1000000; 1000000; 1000000; 1000000; 1000000; 1000000; 1000000; 1000000; 1000000; 1000000; 1000000; 1000000; 1000000; 1000000;
  1000000; 1000000; 1000000; 1000000; 1000000; 1000000; 1000000; 1000000; 1000000; 1000000; 1000000; 1000000; 1000000; 1000000; 1000000;
  1000000; 1000000; 1000000; 1000000; 1000000; 1000000; 1000000; 1000000; 1000000; 1000000; 1000000; 1000000; 1000000; 1000000; 1000000;
  1000000; 1000000; 1000000; 1000000; 1000000; 1000000; 1000000; 1000000; 1000000; 1000000; 1000000; 1000000; 1000000; 1000000; 1000000;
  1000000; 1000000; 1000000; 1000000; 1000000; 1000000; 1000000; 1000000; 1000000; 1000000; 1000000; 1000000; 1000000; 1000000; 1000000;
  1000000; 1000000; 1000000; 1000000; 1000000; 1000000; 1000000; 1000000; 1000000; 1000000; 1000000; 1000000; 1000000; 1000000; 1000000;
  1000000];
  [0; 0; 0; 600000; 683333; 766667; 850000; 864444; 878889; 893333; 907778; 922222; 936667; 951111; 965556; 980000; 981333; 982667;
  984000; 985333; 986667; 988000; 989333; 990667; 992000; 993333; 994667; 996000; 997333; 998667; 1000000; 1000000; 1000000; 1000000;
  1000000; 1000000; 1000000; 1000000; 1000000; 1000000; 1000000; 1000000; 1000000; 1000000; 1000000; 1000000; 1000000; 1000000; 1000000;
  1000000; 1000000; 1000000; 1000000; 1000000; 1000000; 1000000; 1000000; 1000000; 1000000; 1000000; 1000000; 1000000; 1000000; 1000000;
  1000000; 1000000; 1000000; 1000000; 1000000; 1000000; 1000000; 1000000; 1000000; 1000000; 1000000; 1000000; 1000000; 1000000; 1000000;
  1000000; 1000000; 1000000; 1000000; 1000000; 1000000; 1000000; 1000000; 1000000; 1000000; 1000000; 1000000; 1000000; 1000000; 1000000;
  1000000; 1000000; 1000000; 1000000; 1000000; 1000000; 1000000; 1000000; 1000000; 1000000; 1000000; 1000000; 1000000; 1000000; 1000000;
  1000000; 1000000; 1000000; 1000000; 1000000; 1000000; 1000000; 1000000; 1000000; 1000000; 1000000; 1000000; 1000000; 1000000; 1000000;
  1000000; 1000000; 1000000; 1000000; 1000000; 1000000; 1000000; 1000000; 1000000; 1000000; 1000000; 1000000; 1000000; 1000000; 1000000;
  1000000; 1000000; 1000000; 1000000; 1000000; 1000000; 1000000; 1000000; 1000000; 1000000; 1000000; 1000000; 1000000; 1000000; 1000000;
  1000000; 1000000];
  [0; 0; 0; 600000; 683333; 766667; 850000; 864444; 878889; 893333; 907778; 922222; 936667; 951111; 965556; 980000; 981333; 982667;
  984000; 985333; 986667; 988000; 989333; 990667; 992000; 993333; 994667; 996000; 997333; 998667; 1000000; 1000000; 1000000; 1000000;
  1000000; 1000000; 1000000; 1000000; 1000000; 1000000; 1000000; 1000000; 1000000; 1000000; 1000000; 1000000; 1000000; 1000000; 1000000;
  1000000; 1000000; 1000000; 1000000; 1000000; 1000000; 1000000; 1000000; 1000000; 1000000; 1000000; 1000000; 1000000; 1000000; 1000000;
  1000000; 1000000; 1000000; 1000000; 1000000; 1000000; 1000000; 1000000; 1000000; 1000000; 1000000; 1000000; 1000000; 1000000; 1000000;
  1000000; 1000000; 1000000; 1000000; 1000000; 1000000; 1000000; 1000000; 1000000; 1000000; 1000000; 1000000; 1000000; 1000000; 1000000;
  1000000; 1000000; 1000000; 1000000; 1000000; 1000000; 1000000; 1000000; 1000000; 1000000; 1000000; 1000000; 1000000; 1000000; 1000000;
  1000000; 1000000; 1000000; 1000000; 1000000; 1000000; 1000000; 1000000; 1000000; 1000000; 1000000; 1000000; 1000000; 1000000; 1000000;
  1000000; 1000000; 1000000; 1000000; 1000000; 1000000; 1000000; 1000000; 1000000; 1000000; 1000000; 1000000; 1000000; 1000000; 1000000;
  1000000; 1000000; 1000000; 1000000; 1000000; 1000000; 1000000; 1000000; 1000000; 1000000; 1000000; 1000000; 1000000; 1000000; 1000000;
  1000000; 1000000; 1000000];
  [0; 0; 0; 600000; 683333; 766667; 850000; 864444; 878889; 893333; 907778; 922222; 936667; 951111; 965556; 980000; 981333; 982667;
  984000; 985333; 986667; 988000; 989333; 990667; 992000; 993333; 994667; 996000; 997333; 998667; 1000000; 1000000; 1000000; 1000000;
  1000000; 1000000; 1000000; 1000000; 1000000; 1000000; 1000000; 1000000; 1000000; 1000000; 1000000; 1000000; 1000000; 1000000; 1000000;
  1000000; 1000000; 1000000; 1000000; 1000000; 1000000; 1000000; 1000000; 1000000; 1000000; 1000000; 1000000; 1000000; 1000000; 1000000;
  1000000; 1000000; 1000000; 1000000; 1000000; 1000000; 1000000; 1000000; 1000000; 1000000; 1000000; 1000000; 1000000; 1000000; 1000000;
  1000000; 1000000; 1000000; 1000000; 1000000; 1000000; 1000000; 1000000; 1000000; 1000000; 1000000; 1000000; 1000000; 1000000; 1000000;
  1000000; 1000000; 1000000; 1000000; 1000000; 1000000; 1000000; 1000000; 1000000; 1000000; 1000000; 1000000; 1000000; 1000000; 1000000;
  1000000; 1000000; 1000000; 1000000; 1000000; 1000000; 1000000; 1000000; 1000000; 1000000; 1000000; 1000000; 1000000; 1000000; 1000000;
  1000000; 1000000; 1000000; 1000000; 1000000; 1000000; 1000000; 1000000; 1000000; 1000000; 1000000; 1000000; 1000000; 1000000; 1000000;
  1000000; 1000000; 1000000; 1000000; 1000000; 1000000; 1000000; 1000000; 1000000; 1000000; 1000000; 1000000; 1000000; 1000000; 1000000;
  1000000; 1000000; 1000000; 1000000];
  [0; 0; 0; 600000; 683333; 766667; 850000; 864444; 878889; 893333; 907778; 922222; 936667; 951111; 965556; 980000; 981333; 982667;
  984000; 985333; 986667; 988000; 989333; 990667; 992000; 993333; 994667; 996000; 997333; 998667; 1000000; 1000000; 1000000; 1000000;
  1000000; 1000000; 1000000; 1000000; 1000000; 1000000; 1000000; 1000000; 1000000; 1000000; 1000000; 1000000; 1000000; 1000000; 1000000;
  1000000; 1000000; 1000000; 1000000; 1000000; 1000000; 1000000; 1000000; 1000000; 1000000; 1000000; 1000000; 1000000; 1000000; 1000000;
  1000000; 1000000; 1000000; 1000000; 1000000; 1000000; 1000000; 1000000; 1000000; 1000000; 1000000; 1000000; 1000000; 1000000; 1000000;
  1000000; 1000000; 1000000; 1000000; 1000000; 1000000; 1000000; 1000000; 1000000; 1000000; 1000000; 1000000; 1000000; 1000000; 1000000;
  1000000; 1000000; 1000000; 1000000; 1000000; 1000000; 1000000; 1000000; 1000000; 1000000; 1000000; 1000000; 1000000; 1000000; 1000000;
  1000000; 1000000; 1000000; 1000000; 1000000; 1000000; 1000000; 1000000; 1000000; 1000000; 1000000; 1000000; 1000000; 1000000; 1000000;
  1000000; 1000000; 1000000; 1000000; 1000000; 1000000; 1000000; 1000000; 1000000; 1000000; 1000000; 1000000; 1000000; 1000000; 1000000;
  1000000; 1000000; 1000000; 1000000; 1000000; 1000000; 1000000; 1000000; 1000000; 1000000; 1000000; 1000000; 1000000; 1000000; 1000000;
  1000000; 1000000; 1000000; 1000000; 1000000];
  [0; 0; 0; 600000; 683333; 766667; 850000; 864444; 878889; 893333; 907778; 922222; 936667; 951111; 965556; 980000; 981333; 982667;
  984000; 985333; 986667; 988000; 989333; 990667; 992000; 993333; 994667; 996000; 997333; 998667; 1000000; 1000000; 1000000; 1000000;
  1000000; 1000000; 1000000; 1000000; 1000000; 1000000; 1000000; 1000000; 1000000; 1000000; 1000000; 1000000; 1000000; 1000000; 1000000;
  1000000; 1000000; 1000000; 1000000; 1000000; 1000000; 1000000; 1000000; 1000000; 1000000; 1000000; 1000000; 1000000; 1000000; 1000000;
  1000000; 1000000; 1000000; 1000000; 1000000; 1000000; 1000000; 1000000; 1000000; 1000000; 1000000; 1000000; 1000000; 1000000; 1000000;
  1000000; 1000000; 1000000; 1000000; 1000000; 1000000; 1000000; 1000000; 1000000; 1000000; 1000000; 1000000; 1000000; 1000000; 1000000;
  1000000; 1000000; 1000000; 1000000; 1000000; 1000000; 1000000; 1000000; 1000000; 1000000; 1000000; 1000000; 1000000; 1000000; 1000000;
  1000000; 1000000; 1000000; 1000000; 1000000; 1000000; 1000000; 1000000; 1000000; 1000000; 1000000; 1000000; 1000000; 1000000; 1000000;
  1000000; 1000000; 1000000; 1000000; 1000000; 1000000; 1000000; 1000000; 1000000; 1000000; 1000000; 1000000; 1000000; 1000000; 1000000;
  1000000; 1000000; 1000000; 1000000; 1000000; 1000000; 1000000; 1000000; 1000000; 1000000; 1000000; 1000000; 1000000; 1000000; 1000000;
  1000000; 1000000; 1000000; 1000000; 1000000; 1000000];
  [0; 0; 0; 600000; 683333; 766667; 850000; 864444; 878889; 893333; 907778; 922222; 936667; 951111; 965556; 980000; 981333; 982667;
  984000; 985333; 986667; 988000; 989333; 990667; 992000; 993333; 994667; 996000; 997333; 998667; 1000000; 1000000; 1000000; 1000000;
  1000000; 1000000; 1000000; 1000000; 1000000; 1000000; 1000000; 1000000; 1000000; 1000000; 1000000; 1000000; 1000000; 1000000; 1000000;
  1000000; 1000000; 1000000; 1000000; 1000000; 1000000; 1000000; 1000000; 1000000; 1000000; 1000000; 1000000; 1000000; 1000000; 1000000;
  1000000; 1000000; 1000000; 1000000; 1000000; 1000000; 1000000; 1000000; 1000000; 1000000; 1000000; 1000000; 1000000; 1000000; 1000000;
  1000000; 1000000; 1000000; 1000000; 1000000; 1000000; 1000000; 1000000; 1000000; 1000000; 1000000; 1000000; 1000000; 1000000; 1000000;
  1000000; 1000000; 1000000; 1000000; 1000000; 1000000; 1000000; 1000000; 1000000; 1000000; 1000000; 1000000; 1000000; 1000000; 1000000;
  1000000; 1000000; 1000000; 1000000; 1000000; 1000000; 1000000; 1000000; 1000000; 1000000; 1000000; 1000000; 1000000; 1000000; 1000000;
  1000000; 1000000; 1000000; 1000000; 1000000; 1000000; 1000000; 1000000; 1000000; 1000000; 1000000; 1000000; 1000000; 1000000; 1000000;
  1000000; 1000000; 1000000; 1000000; 1000000; 1000000; 1000000; 1000000; 1000000; 1000000; 1000000; 1000000; 1000000; 1000000; 1000000;
  1000000; 1000000; 1000000; 1000000; 1000000; 1000000; 1000000];
  [0; 0; 0; 600000; 683333; 766667; 850000; 864444; 878889; 893333; 907778; 922222; 936667; 951111; 965556; 980000; 981333; 982667;
  984000; 985333; 986667; 988000; 989333; 990667; 992000; 993333; 994667; 996000; 997333; 998667; 1000000; 1000000; 1000000; 1000000;
  1000000; 1000000; 1000000; 1000000; 1000000; 1000000; 1000000; 1000000; 1000000; 1000000; 1000000; 1000000; 1000000; 1000000; 1000000;
  1000000; 1000000; 1000000; 1000000; 1000000; 1000000; 1000000; 1000000; 1000000; 1000000; 1000000; 1000000; 1000000; 1000000; 1000000;
  1000000; 1000000; 1000000; 1000000; 1000000; 1000000; 1000000; 1000000; 1000000; 1000000; 1000000; 1000000; 1000000; 1000000; 1000000;
  1000000; 1000000; 1000000; 1000000; 1000000; 1000000; 1000000; 1000000; 1000000; 1000000; 1000000; 1000000; 1000000; 1000000; 1000000;
  1000000; 1000000; 1000000; 1000000; 1000000; 1000000; 1000000; 1000000; 1000000; 1000000; 1000000; 1000000; 1000000; 1000000; 1000000;
  1000000; 1000000; 1000000; 1000000; 1000000; 1000000; 1000000; 1000000; 1000000; 1000000; 1000000; 1000000; 1000000; 1000000; 1000000;
  1000000; 1000000; 1000000; 1000000; 1000000; 1000000; 1000000; 1000000; 1000000; 1000000; 1000000; 1000000; 1000000; 1000000; 1000000;
  1000000; 1000000; 1000000; 1000000; 1000000; 1000000; 1000000; 1000000; 1000000; 1000000; 1000000; 1000000; 1000000; 1000000; 1000000;
  1000000; 1000000; 1000000; 1000000; 1000000; 1000000; 1000000; 1000000];
  [0; 0; 0; 600000; 683333; 766667; 850000; 864444; 878889; 893333; 907778; 922222; 936667; 951111; 965556; 980000; 981333; 982667;
  984000; 985333; 986667; 988000; 989333; 990667; 992000; 993333; 994667; 996000; 997333; 998667; 1000000; 1000000; 1000000; 1000000;
  1000000; 1000000; 1000000; 1000000; 1000000; 1000000; 1000000; 1000000; 1000000; 1000000; 1000000; 1000000; 1000000; 1000000; 1000000;
  1000000; 1000000; 1000000; 1000000; 1000000; 1000000; 1000000; 1000000; 1000000; 1000000; 1000000; 1000000; 1000000; 1000000; 1000000;
  1000000; 1000000; 1000000; 1000000; 1000000; 1000000; 1000000; 1000000; 1000000; 1000000; 1000000; 1000000; 1000000; 1000000; 1000000;
  1000000; 1000000; 1000000; 1000000; 1000000; 1000000; 1000000; 1000000; 1000000; 1000000; 1000000; 1000000; 1000000; 1000000; 1000000;
  1000000; 1000000; 1000000; 1000000; 1000000; 1000000; 1000000; 1000000; 1000000; 1000000; 1000000; 1000000; 1000000; 1000000; 1000000;
  1000000; 1000000; 1000000; 1000000; 1000000; 1000000; 1000000; 1000000; 1000000; 1000000; 1000000; 1000000; 1000000; 1000000; 1000000;
  1000000; 1000000; 1000000; 1000000; 1000000; 1000000; 1000000; 1000000; 1000000; 1000000; 1000000; 1000000; 1000000; 1000000; 1000000;
  1000000; 1000000; 1000000; 1000000; 1000000; 1000000; 1000000; 1000000; 1000000; 1000000; 1000000; 1000000; 1000000; 1000000; 1000000;
  1000000; 1000000; 1000000; 1000000; 1000000; 1000000; 1000000; 1000000; 1000000];
  [0; 0; 0; 600000; 683333; 766667; 850000; 864444; 878889; 893333; 907778; 922222; 936667; 951111; 965556; 980000; 981333; 982667;
  984000; 985333; 986667; 988000; 989333; 990667; 992000; 993333; 994667; 996000; 997333; 998667; 1000000; 1000000; 1000000; 1000000;
  1000000; 1000000; 1000000; 1000000; 1000000; 1000000; 1000000; 1000000; 1000000; 1000000; 1000000; 1000000; 1000000; 1000000; 1000000;
  1000000; 1000000; 1000000; 1000000; 1000000; 1000000; 1000000; 1000000; 1000000; 1000000; 1000000; 1000000; 1000000; 1000000; 1000000;
  1000000; 1000000; 1000000; 1000000; 1000000; 1000000; 1000000; 1000000; 1000000; 1000000; 1000000; 1000000; 1000000; 1000000; 1000000;
  1000000; 1000000; 1000000; 1000000; 1000000; 1000000; 1000000; 1000000; 1000000; 1000000; 1000000; 1000000; 1000000; 1000000; 1000000;
  1000000; 1000000; 1000000; 1000000; 1000000; 1000000; 1000000; 1000000; 1000000; 1000000; 1000000; 1000000; 1000000; 1000000; 1000000;
  1000000; 1000000; 1000000; 1000000; 1000000; 1000000; 1000000; 1000000; 1000000; 1000000; 1000000; 1000000; 1000000; 1000000; 1000000;
  1000000; 1000000; 1000000; 1000000; 1000000; 1000000; 1000000; 1000000; 1000000; 1000000; 1000000; 1000000; 1000000; 1000000; 1000000;
  1000000; 1000000; 1000000; 1000000; 1000000; 1000000; 1000000; 1000000; 1000000; 1000000; 1000000; 1000000; 1000000; 1000000; 1000000;
  1000000; 1000000; 1000000; 1000000; 1000000; 1000000; 1000000; 1000000; 1000000; 1000000];
  [0; 0; 0; 600000; 683333; 766667; 850000; 864444; 878889; 893333; 907778; 922222; 936667; 951111; 965556; 980000; 981333; 982667;
  984000; 985333; 986667; 988000; 989333; 990667; 992000; 993333; 994667; 996000; 997333; 998667; 1000000; 1000000; 1000000; 1000000;
  1000000; 1000000; 1000000; 1000000; 1000000; 1000000; 1000000; 1000000; 1000000; 1000000; 1000000; 1000000; 1000000; 1000000; 1000000;
  1000000; 1000000; 1000000; 1000000; 1000000; 1000000; 1000000; 1000000; 1000000; 1000000; 1000000; 1000000; 1000000; 1000000; 1000000;
  1000000; 1000000; 1000000; 1000000; 1000000; 1000000; 1000000; 1000000; 1000000; 1000000; 1000000; 1000000; 1000000; 1000000; 1000000;
  1000000; 1000000; 1000000; 1000000; 1000000; 1000000; 1000000; 1000000; 1000000; 1000000; 1000000; 1000000; 1000000; 1000000; 1000000;
  1000000; 1000000; 1000000; 1000000; 1000000; 1000000; 1000000; 1000000; 1000000; 1000000; 1000000; 1000000; 1000000; 1000000; 1000000;
  1000000; 1000000; 1000000; 1000000; 1000000; 1000000; 1000000; 1000000; 1000000; 1000000; 1000000; 1000000; 1000000; 1000000; 1000000;
  1000000; 1000000; 1000000; 1000000; 1000000; 1000000; 1000000; 1000000; 1000000; 1000000; 1000000; 1000000; 1000000; 1000000; 1000000;
  1000000; 1000000; 1000000; 1000000; 1000000; 1000000; 1000000; 1000000; 1000000; 1000000; 1000000; 1000000; 1000000; 1000000; 1000000;
  1000000; 1000000; 1000000; 1000000; 1000000; 1000000; 1000000; 1000000; 1000000; 1000000; 1000000];
  [0; 0; 0; 600000; 683333; 766667; 850000; 864444; 878889; 893333; 907778; 922222; 936667; 951111; 965556; 980000; 981333; 982667;
  984000; 985333; 986667; 988000; 989333; 990667; 992000; 993333; 994667; 996000; 997333; 998667; 1000000; 1000000; 1000000; 1000000;
  1000000; 1000000; 1000000; 1000000; 1000000; 1000000; 1000000; 1000000; 1000000; 1000000; 1000000; 1000000; 1000000; 1000000; 1000000;
  1000000; 1000000; 1000000; 1000000; 1000000; 1000000; 1000000; 1000000; 1000000; 1000000; 1000000; 1000000; 1000000; 1000000; 1000000;
  1000000; 1000000; 1000000; 1000000; 1000000; 1000000; 1000000; 1000000; 1000000; 1000000; 1000000; 1000000; 1000000; 1000000; 1000000;
  1000000; 1000000; 1000000; 1000000; 1000000; 1000000; 1000000; 1000000; 1000000; 1000000; 1000000; 1000000; 1000000; 1000000; 1000000;
  1000000; 1000000; 1000000; 1000000; 1000000; 1000000; 1000000; 1000000; 1000000; 1000000; 1000000; 1000000; 1000000; 1000000; 1000000;
  1000000; 1000000; 1000000; 1000000; 1000000; 1000000; 1000000; 1000000; 1000000; 1000000; 1000000; 1000000; 1000000; 1000000; 1000000;
  1000000; 1000000; 1000000; 1000000; 1000000; 1000000; 1000000; 1000000; 1000000; 1000000; 1000000; 1000000; 1000000; 1000000; 1000000;
  1000000; 1000000; 1000000; 1000000; 1000000; 1000000; 1000000; 1000000; 1000000; 1000000; 1000000; 1000000; 1000000; 1000000; 1000000;
  1000000; 1000000; 1000000; 1000000; 1000000; 1000000; 1000000; 1000000; 1000000; 1000000; 1000000; 1000000];
  [0; 0; 0; 600000; 683333; 766667; 850000; 864444; 878889; 893333; 907778; 922222; 936667; 951111; 965556; 980000; 981333; 982667;
  984000; 985333; 986667; 988000; 989333; 990667; 992000; 993333; 994667; 996000; 997333; 998667; 1000000; 1000000; 1000000; 1000000;
  1000000; 1000000; 1000000; 1000000; 1000000; 1000000; 1000000; 1000000; 1000000; 1000000; 1000000; 1000000; 1000000; 1000000; 1000000;
  1000000; 1000000; 1000000; 1000000; 1000000; 1000000; 1000000; 1000000; 1000000; 1000000; 1000000; 1000000; 1000000; 1000000; 1000000;
  1000000; 1000000; 1000000; 1000000; 1000000; 1000000; 1000000; 1000000; 1000000; 1000000; 1000000; 1000000; 1000000; 1000000; 1000000;
  1000000; 1000000; 1000000; 1000000; 1000000; 1000000; 1000000; 1000000; 1000000; 1000000; 1000000; 1000000; 1000000; 1000000; 1000000;
  1000000; 1000000; 1000000; 1000000; 1000000; 1000000; 1000000; 1000000; 1000000; 1000000; 1000000; 1000000; 1000000; 1000000; 1000000;
  1000000; 1000000; 1000000; 1000000; 1000000; 1000000; 1000000; 1000000; 1000000; 1000000; 1000000; 1000000; 1000000; 1000000; 1000000;
  1000000; 1000000; 1000000; 1000000; 1000000; 1000000; 1000000; 1000000; 1000000; 1000000; 1000000; 1000000; 1000000; 1000000; 1000000;
  1000000; 1000000; 1000000; 1000000; 1000000; 1000000; 1000000; 1000000; 1000000; 1000000; 1000000; 1000000; 1000000; 1000000; 1000000;
  1000000; 1000000; 1000000; 1000000; 1000000; 1000000; 1000000; 1000000; 1000000; 1000000; 1000000; 1000000; 1000000];
  [0; 0; 0; 600000; 683333; 766667; 850000; 864444; 878889; 893333; 907778; 922222; 936667; 951111; 965556; 980000; 981333; 982667;
  984000; 985333; 986667; 988000; 989333; 990667; 992000; 993333; 994667; 996000; 997333; 998667; 1000000; 1000000; 1000000; 1000000;
  1000000; 1000000; 1000000; 1000000; 1000000; 1000000; 1000000; 1000000; 1000000; 1000000; 1000000; 1000000; 1000000; 1000000; 1000000;
  1000000; 1000000; 1000000; 1000000; 1000000; 1000000; 1000000; 1000000; 1000000; 1000000; 1000000; 1000000; 1000000; 1000000; 1000000;
  1000000; 1000000; 1000000; 1000000; 1000000; 1000000; 1000000; 1000000; 1000000; 1000000; 1000000; 1000000; 1000000; 1000000; 1000000;
  1000000; 1000000; 1000000; 1000000; 1000000; 1000000; 1000000; 1000000; 1000000; 1000000; 1000000; 1000000; 1000000; 1000000; 1000000;
  1000000; 1000000; 1000000; 1000000; 1000000; 1000000; 1000000; 1000000; 1000000; 1000000; 1000000; 1000000; 1000000; 1000000; 1000000;
  1000000; 1000000; 1000000; 1000000; 1000000; 1000000; 1000000; 1000000; 1000000; 1000000; 1000000; 1000000; 1000000; 1000000; 1000000;
  1000000; 1000000; 1000000; 1000000; 1000000; 1000000; 1000000; 1000000; 1000000; 1000000; 1000000; 1000000; 1000000; 1000000; 1000000;
  1000000; 1000000; 1000000; 1000000; 1000000; 1000000; 1000000; 1000000; 1000000; 1000000; 1000000; 1000000; 1000000; 1000000; 1000000;
  1000000; 1000000; 1000000; 1000000; 1000000; 1000000; 1000000; 1000000; 1000000; 1000000; 1000000; 1000000; 1000000; 1000000];
  [0; 0; 0; 600000; 683333; 766667; 850000; 864444; 878889; 893333; 907778; 922222; 936667; 951111; 965556; 980000; 981333; 982667;
  984000; 985333; 986667; 988000; 989333; 990667; 992000; 993333; 994667; 996000; 997333; 998667; 1000000; 1000000; 1000000; 1000000;
  1000000; 1000000; 1000000; 1000000; 1000000; 1000000; 1000000; 1000000; 1000000; 1000000; 1000000; 1000000; 1000000; 1000000; 1000000;
  1000000; 1000000; 1000000; 1000000; 1000000; 1000000; 1000000; 1000000; 1000000; 1000000; 1000000; 1000000; 1000000; 1000000; 1000000;
  1000000; 1000000; 1000000; 1000000; 1000000; 1000000; 1000000; 1000000; 1000000; 1000000; 1000000; 1000000; 1000000; 1000000; 1000000;
  1000000; 1000000; 1000000; 1000000; 1000000; 1000000; 1000000; 1000000; 1000000; 1000000; 1000000; 1000000; 1000000; 1000000; 1000000;
  1000000; 1000000; 1000000; 1000000; 1000000; 1000000; 1000000; 1000000; 1000000; 1000000; 1000000; 1000000; 1000000; 1000000; 1000000;
  1000000; 1000000; 1000000; 1000000; 1000000; 1000000; 1000000; 1000000; 1000000; 1000000; 1000000; 1000000; 1000000; 1000000; 1000000;
  1000000; 1000000; 1000000; 1000000; 1000000; 1000000; 1000000; 1000000; 1000000; 1000000; 1000000; 1000000; 1000000; 1000000; 1000000;
  1000000; 1000000; 1000000; 1000000; 1000000; 1000000; 1000000; 1000000; 1000000; 1000000; 1000000; 1000000; 1000000; 1000000; 1000000;
  1000000; 1000000; 1000000; 1000000; 1000000; 1000000; 1000000; 1000000; 1000000; 1000000; 1000000; 1000000; 1000000; 1000000; 1000000];
  [0; 0; 0; 600000; 683333; 766667; 850000; 864444; 878889; 893333; 907778; 922222; 936667; 951111; 965556; 980000; 981333; 982667;
  984000; 985333; 986667; 988000; 989333; 990667; 992000; 993333; 994667; 996000; 997333; 998667; 1000000; 1000000; 1000000; 1000000;
  1000000; 1000000; 1000000; 1000000; 1000000; 1000000; 1000000; 1000000; 1000000; 1000000; 1000000; 1000000; 1000000; 1000000; 1000000;
  1000000; 1000000; 1000000; 1000000; 1000000; 1000000; 1000000; 1000000; 1000000; 1000000; 1000000; 1000000; 1000000; 1000000; 1000000;
  1000000; 1000000; 1000000; 1000000; 1000000; 1000000; 1000000; 1000000; 1000000; 1000000; 1000000; 1000000; 1000000; 1000000; 1000000;
  1000000; 1000000; 1000000; 1000000; 1000000; 1000000; 1000000; 1000000; 1000000; 1000000; 1000000; 1000000; 1000000; 1000000; 1000000;
  1000000; 1000000; 1000000; 1000000; 1000000; 1000000; 1000000; 1000000; 1000000; 1000000; 1000000; 1000000; 1000000; 1000000; 1000000;
  1000000; 1000000; 1000000; 1000000; 1000000; 1000000; 1000000; 1000000; 1000000; 1000000; 1000000; 1000000; 1000000; 1000000; 1000000;
  1000000; 1000000; 1000000; 1000000; 1000000; 1000000; 1000000; 1000000; 1000000; 1000000; 1000000; 1000000; 1000000; 1000000; 1000000;
  1000000; 1000000; 1000000; 1000000; 1000000; 1000000; 1000000; 1000000; 1000000; 1000000; 1000000; 1000000; 1000000; 1000000; 1000000;
  1000000; 1000000; 1000000; 1000000; 1000000; 1000000; 1000000; 1000000; 1000000; 1000000; 1000000; 1000000; 1000000; 1000000; 1000000;
  1000000];
  [0; 0; 0; 600000; 683333; 766667; 850000; 864444; 878889; 893333; 907778; 922222; 936667; 951111; 965556; 980000; 981333; 982667;
  984000; 985333; 986667; 988000; 989333; 990667; 992000; 993333; 994667; 996000; 997333; 998667; 1000000; 1000000; 1000000; 1000000;
  1000000; 1000000; 1000000; 1000000; 1000000; 1000000; 1000000; 1000000; 1000000; 1000000; 1000000; 1000000; 1000000; 1000000; 1000000;
  1000000; 1000000; 1000000; 1000000; 1000000; 1000000; 1000000; 1000000; 1000000; 1000000; 1000000; 1000000; 1000000; 1000000; 1000000;
  1000000; 1000000; 1000000; 1000000; 1000000; 1000000; 1000000; 1000000; 1000000; 1000000; 1000000; 1000000; 1000000; 1000000; 1000000;
  1000000; 1000000; 1000000; 1000000; 1000000; 1000000; 1000000; 1000000; 1000000; 1000000; 1000000; 1000000; 1000000; 1000000; 1000000;
  1000000; 1000000; 1000000; 1000000; 1000000; 1000000; 1000000; 1000000; 1000000; 1000000; 1000000; 1000000; 1000000; 1000000; 1000000;
  1000000; 1000000; 1000000; 1000000; 1000000; 1000000; 1000000; 1000000; 1000000; 1000000; 1000000; 1000000; 1000000; 1000000; 1000000;
  1000000; 1000000; 1000000; 1000000; 1000000; 1000000; 1000000; 1000000; 1000000; 1000000; 1000000; 1000000; 1000000; 1000000; 1000000;
  1000000; 1000000; 1000000; 1000000; 1000000; 1000000; 1000000; 1000000; 1000000; 1000000; 1000000; 1000000; 1000000; 1000000; 1000000;
  1000000; 1000000; 1000000; 1000000; 1000000; 1000000; 1000000; 1000000; 1000000; 1000000; 1000000; 1000000; 1000000; 1000000; 1000000;
  1000000; 1000000];
  [0; 0; 0; 600000; 683333; 766667; 850000; 864444; 878889; 893333; 907778; 922222; 936667; 951111; 965556; 980000; 981333; 982667;
  984000; 985333; 986667; 988000; 989333; 990667; 992000; 993333; 994667; 996000; 997333; 998667; 1000000; 1000000; 1000000; 1000000;
  1000000; 1000000; 1000000; 1000000; 1000000; 1000000; 1000000; 1000000; 1000000; 1000000; 1000000; 1000000; 1000000; 1000000; 1000000;
  1000000; 1000000; 1000000; 1000000; 1000000; 1000000; 1000000; 1000000; 1000000; 1000000; 1000000; 1000000; 1000000; 1000000; 1000000;
  1000000; 1000000; 1000000; 1000000; 1000000; 1000000; 1000000; 1000000; 1000000; 1000000; 1000000; 1000000; 1000000; 1000000; 1000000;
  1000000; 1000000; 1000000; 1000000; 1000000; 1000000; 1000000; 1000000; 1000000; 1000000; 1000000; 1000000; 1000000; 1000000; 1000000;
  1000000; 1000000; 1000000; 1000000; 1000000; 1000000; 1000000; 1000000; 1000000; 1000000; 1000000; 1000000; 1000000; 1000000; 1000000;
  1000000; 1000000; 1000000; 1000000; 1000000; 1000000; 1000000; 1000000; 1000000; 1000000; 1000000; 1000000; 1000000; 1000000; 1000000;
  1000000; 1000000; 1000000; 1000000; 1000000; 1000000; 1000000; 1000000; 1000000; 1000000; 1000000; 1000000; 1000000; 1000000; 1000000;
  1000000; 1000000; 1000000; 1000000; 1000000; 1000000; 1000000; 1000000; 1000000; 1000000; 1000000; 1000000; 1000000; 1000000; 1000000;
  1000000; 1000000; 1000000; 1000000; 1000000; 1000000; 1000000; 1000000; 1000000; 1000000; 1000000; 1000000; 1000000; 1000000; 1000000;
  1000000; 1000000; 1000000];
  [0; 0; 0; 600000; 683333; 766667; 850000; 864444; 878889; 893333; 907778; 922222; 936667; 951111; 965556; 980000; 981333; 982667;
  984000; 985333; 986667; 988000; 989333; 990667; 992000; 993333; 994667; 996000; 997333; 998667; 1000000; 1000000; 1000000; 1000000;
  1000000; 1000000; 1000000; 1000000; 1000000; 1000000; 1000000; 1000000; 1000000; 1000000; 1000000; 1000000; 1000000; 1000000; 1000000;
  1000000; 1000000; 1000000; 1000000; 1000000; 1000000; 1000000; 1000000; 1000000; 1000000; 1000000; 1000000; 1000000; 1000000; 1000000;
  1000000; 1000000; 1000000; 1000000; 1000000; 1000000; 1000000; 1000000; 1000000; 1000000; 1000000; 1000000; 1000000; 1000000; 1000000;
  1000000; 1000000; 1000000; 1000000; 1000000; 1000000; 1000000; 1000000; 1000000; 1000000; 1000000; 1000000; 1000000; 1000000; 1000000;
  1000000; 1000000; 1000000; 1000000; 1000000; 1000000; 1000000; 1000000; 1000000; 1000000; 1000000; 1000000; 1000000; 1000000; 1000000;
  1000000; 1000000; 1000000; 1000000; 1000000; 1000000; 1000000; 1000000; 1000000; 1000000; 1000000; 1000000; 1000000; 1000000; 1000000;
  1000000; 1000000; 1000000; 1000000; 1000000; 1000000; 1000000; 1000000; 1000000; 1000000; 1000000; 1000000; 1000000; 1000000; 1000000;
  1000000; 1000000; 1000000; 1000000; 1000000; 1000000; 1000000; 1000000; 1000000; 1000000; 1000000; 1000000; 1000000; 1000000; 1000000;
  1000000; 1000000; 1000000; 1000000; 1000000; 1000000; 1000000; 1000000; 1000000; 1000000; 1000000; 1000000; 1000000; 1000000; 1000000;
  1000000; 1000000; 1000000; 1000000];
  [0; 0; 0; 600000; 683333; 766667; 850000; 864444; 878889; 893333; 907778; 922222; 936667; 951111; 965556; 980000; 981333; 982667;
  984000; 985333; 986667; 988000; 989333; 990667; 992000; 993333; 994667; 996000; 997333; 998667; 1000000; 1000000; 1000000; 1000000;
  1000000; 1000000; 1000000; 1000000; 1000000; 1000000; 1000000; 1000000; 1000000; 1000000; 1000000; 1000000; 1000000; 1000000; 1000000;
  1000000; 1000000; 1000000; 1000000; 1000000; 1000000; 1000000; 1000000; 1000000; 1000000; 1000000; 1000000; 1000000; 1000000; 1000000;
  1000000; 1000000; 1000000; 1000000; 1000000; 1000000; 1000000; 1000000; 1000000; 1000000; 1000000; 1000000; 1000000; 1000000; 1000000;
  1000000; 1000000; 1000000; 1000000; 1000000; 1000000; 1000000; 1000000; 1000000; 1000000; 1000000; 1000000; 1000000; 1000000; 1000000;
  1000000; 1000000; 1000000; 1000000; 1000000; 1000000; 1000000; 1000000; 1000000; 1000000; 1000000; 1000000; 1000000; 1000000; 1000000;
  1000000; 1000000; 1000000; 1000000; 1000000; 1000000; 1000000; 1000000; 1000000; 1000000; 1000000; 1000000; 1000000; 1000000; 1000000;
  1000000; 1000000; 1000000; 1000000; 1000000; 1000000; 1000000; 1000000; 1000000; 1000000; 1000000; 1000000; 1000000; 1000000; 1000000;
  1000000; 1000000; 1000000; 1000000; 1000000; 1000000; 1000000; 1000000; 1000000; 1000000; 1000000; 1000000; 1000000; 1000000; 1000000;
  1000000; 1000000; 1000000; 1000000; 1000000; 1000000; 1000000; 1000000; 1000000; 1000000; 1000000; 1000000; 1000000; 1000000; 1000000;
  1000000; 1000000; 1000000; 1000000; 1000000];
  [0; 0; 0; 600000; 683333; 766667; 850000; 864444; 878889; 893333; 907778; 922222; 936667; 951111; 965556; 980000; 981333; 982667;
  984000; 985333; 986667; 988000; 989333; 990667; 992000; 993333; 994667; 996000; 997333; 998667; 1000000; 1000000; 1000000; 1000000;
  1000000; 1000000; 1000000; 1000000; 1000000; 1000000; 1000000; 1000000; 1000000; 1000000; 1000000; 1000000; 1000000; 1000000; 1000000;
  1000000; 1000000; 1000000; 1000000; 1000000; 1000000; 1000000; 1000000; 1000000; 1000000; 1000000; 1000000; 1000000; 1000000; 1000000;
  1000000; 1000000; 1000000; 1000000; 1000000; 1000000; 1000000; 1000000; 1000000; 1000000; 1000000; 1000000; 1000000; 1000000; 1000000;
  1000000; 1000000; 1000000; 1000000; 1000000; 1000000; 1000000; 1000000; 1000000; 1000000; 1000000; 1000000; 1000000; 1000000; 1000000;
  1000000; 1000000; 1000000; 1000000; 1000000; 1000000; 1000000; 1000000; 1000000; 1000000; 1000000; 1000000; 1000000; 1000000; 1000000;
  1000000; 1000000; 1000000; 1000000; 1000000; 1000000; 1000000; 1000000; 1000000; 1000000; 1000000; 1000000; 1000000; 1000000; 1000000;
  1000000; 1000000; 1000000; 1000000; 1000000; 1000000; 1000000; 1000000; 1000000; 1000000; 1000000; 1000000; 1000000; 1000000; 1000000;
  1000000; 1000000; 1000000; 1000000; 1000000; 1000000; 1000000; 1000000; 1000000; 1000000; 1000000; 1000000; 1000000; 1000000; 1000000;
  1000000; 1000000; 1000000; 1000000; 1000000; 1000000; 1000000; 1000000; 1000000; 1000000; 1000000; 1000000; 1000000; 1000000; 1000000;
  1000000; 1000000; 1000000; 1000000; 1000000; 1000000];
  [0; 0; 0; 600000; 683333; 766667; 850000; 864444; 878889; 893333; 907778; 922222; 936667; 951111; 965556; 980000; 981333; 982667;
  984000; 985333; 986667; 988000; 989333; 990667; 992000; 993333; 994667; 996000; 997333; 998667; 1000000; 1000000; 1000000; 1000000;
  1000000; 1000000; 1000000; 1000000; 1000000; 1000000; 1000000; 1000000; 1000000; 1000000; 1000000; 1000000; 1000000; 1000000; 1000000;
  1000000; 1000000; 1000000; 1000000; 1000000; 1000000; 1000000; 1000000; 1000000; 1000000; 1000000; 1000000; 1000000; 1000000; 1000000;
  1000000; 1000000; 1000000; 1000000; 1000000; 1000000; 1000000; 1000000; 1000000; 1000000; 1000000; 1000000; 1000000; 1000000; 1000000;
  1000000; 1000000; 1000000; 1000000; 1000000; 1000000; 1000000; 1000000; 1000000; 1000000; 1000000; 1000000; 1000000; 1000000; 1000000;
  1000000; 1000000; 1000000; 1000000; 1000000; 1000000; 1000000; 1000000; 1000000; 1000000; 1000000; 1000000; 1000000; 1000000; 1000000;
  1000000; 1000000; 1000000; 1000000; 1000000; 1000000; 1000000; 1000000; 1000000; 1000000; 1000000; 1000000; 1000000; 1000000; 1000000;
  1000000; 1000000; 1000000; 1000000; 1000000; 1000000; 1000000; 1000000; 1000000; 1000000; 1000000; 1000000; 1000000; 1000000; 1000000;
  1000000; 1000000; 1000000; 1000000; 1000000; 1000000; 1000000; 1000000; 1000000; 1000000; 1000000; 1000000; 1000000; 1000000; 1000000;
  1000000; 1000000; 1000000; 1000000; 1000000; 1000000; 1000000; 1000000; 1000000; 1000000; 1000000; 1000000; 1000000; 1000000; 1000000;
  1000000; 1000000; 1000000; 1000000; 1000000; 1000000; 1000000];
  [0; 0; 0; 600000; 683333; 766667; 850000; 864444; 878889; 893333; 907778; 922222; 936667; 951111; 965556; 980000; 981333; 982667;
  984000; 985333; 986667; 988000; 989333; 990667; 992000; 993333; 994667; 996000; 997333; 998667; 1000000; 1000000; 1000000; 1000000;
  1000000; 1000000; 1000000; 1000000; 1000000; 1000000; 1000000; 1000000; 1000000; 1000000; 1000000; 1000000; 1000000; 1000000; 1000000;
  1000000; 1000000; 1000000; 1000000; 1000000; 1000000; 1000000; 1000000; 1000000; 1000000; 1000000; 1000000; 1000000; 1000000; 1000000;
  1000000; 1000000; 1000000; 1000000; 1000000; 1000000; 1000000; 1000000; 1000000; 1000000; 1000000; 1000000; 1000000; 1000000; 1000000;
  1000000; 1000000; 1000000; 1000000; 1000000; 1000000; 1000000; 1000000; 1000000; 1000000; 1000000; 1000000; 1000000; 1000000; 1000000;
  1000000; 1000000; 1000000; 1000000; 1000000; 1000000; 1000000; 1000000; 1000000; 1000000; 1000000; 1000000; 1000000; 1000000; 1000000;
  1000000; 1000000; 1000000; 1000000; 1000000; 1000000; 1000000; 1000000; 1000000; 1000000; 1000000; 1000000; 1000000; 1000000; 1000000;
  1000000; 1000000; 1000000; 1000000; 1000000; 1000000; 1000000; 1000000; 1000000; 1000000; 1000000; 1000000; 1000000; 1000000; 1000000;
  1000000; 1000000; 1000000; 1000000; 1000000; 1000000; 1000000; 1000000; 1000000; 1000000; 1000000; 1000000; 1000000; 1000000; 1000000;
  1000000; 1000000; 1000000; 1000000; 1000000; 1000000; 1000000; 1000000; 1000000; 1000000; 1000000; 1000000; 1000000; 1000000; 1000000;
  1000000; 1000000; 1000000; 1000000; 1000000; 1000000; 1000000; 1000000];
  [0; 0; 0; 600000; 683333; 766667; 850000; 864444; 878889; 893333; 907778; 922222; 936667; 951111; 965556; 980000; 981333; 982667;
  984000; 985333; 986667; 988000; 989333; 990667; 992000; 993333; 994667; 996000; 997333; 998667; 1000000; 1000000; 1000000; 1000000;
  1000000; 1000000; 1000000; 1000000; 1000000; 1000000; 1000000; 1000000; 1000000; 1000000; 1000000; 1000000; 1000000; 1000000; 1000000;
  1000000; 1000000; 1000000; 1000000; 1000000; 1000000; 1000000; 1000000; 1000000; 1000000; 1000000; 1000000; 1000000; 1000000; 1000000;
  1000000; 1000000; 1000000; 1000000; 1000000; 1000000; 1000000; 1000000; 1000000; 1000000; 1000000; 1000000; 1000000; 1000000; 1000000;
  1000000; 1000000; 1000000; 1000000; 1000000; 1000000; 1000000; 1000000; 1000000; 1000000; 1000000; 1000000; 1000000; 1000000; 1000000;
  1000000; 1000000; 1000000; 1000000; 1000000; 1000000; 1000000; 1000000; 1000000; 1000000; 1000000; 1000000; 1000000; 1000000; 1000000;
  1000000; 1000000; 1000000; 1000000; 1000000; 1000000; 1000000; 1000000; 1000000; 1000000; 1000000; 1000000; 1000000; 1000000; 1000000;
  1000000; 1000000; 1000000; 1000000; 1000000; 1000000; 1000000; 1000000; 1000000; 1000000; 1000000; 1000000; 1000000; 1000000; 1000000;
  1000000; 1000000; 1000000; 1000000; 1000000; 1000000; 1000000; 1000000; 1000000; 1000000; 1000000; 1000000; 1000000; 1000000; 1000000;
  1000000; 1000000; 1000000; 1000000; 1000000; 1000000; 1000000; 1000000; 1000000; 1000000; 1000000; 1000000; 1000000; 1000000; 1000000;
  1000000; 1000000; 1000000; 1000000; 1000000; 1000000; 1000000; 1000000; 1000000];
  [0; 0; 0; 600000; 683333; 766667; 850000; 864444; 878889; 893333; 907778; 922222; 936667; 951111; 965556; 980000; 981333; 982667;
  984000; 985333; 986667; 988000; 989333; 990667; 992000; 993333; 994667; 996000; 997333; 998667; 1000000; 1000000; 1000000; 1000000;
  1000000; 1000000; 1000000; 1000000; 1000000; 1000000; 1000000; 1000000; 1000000; 1000000; 1000000; 1000000; 1000000; 1000000; 1000000;
  1000000; 1000000; 1000000; 1000000; 1000000; 1000000; 1000000; 1000000; 1000000; 1000000; 1000000; 1000000; 1000000; 1000000; 1000000;
  1000000; 1000000; 1000000; 1000000; 1000000; 1000000; 1000000; 1000000; 1000000; 1000000; 1000000; 1000000; 1000000; 1000000; 1000000;
  1000000; 1000000; 1000000; 1000000; 1000000; 1000000; 1000000; 1000000; 1000000; 1000000; 1000000; 1000000; 1000000; 1000000; 1000000;
  1000000; 1000000; 1000000; 1000000; 1000000; 1000000; 1000000; 1000000; 1000000; 1000000; 1000000; 1000000; 1000000; 1000000; 1000000;
  1000000; 1000000; 1000000; 1000000; 1000000; 1000000; 1000000; 1000000; 1000000; 1000000; 1000000; 1000000; 1000000; 1000000; 1000000;
  1000000; 1000000; 1000000; 1000000; 1000000; 1000000; 1000000; 1000000; 1000000; 1000000; 1000000; 1000000; 1000000; 1000000; 1000000;
  1000000; 1000000; 1000000; 1000000; 1000000; 1000000; 1000000; 1000000; 1000000; 1000000; 1000000; 1000000; 1000000; 1000000; 1000000;
  1000000; 1000000; 1000000; 1000000; 1000000; 1000000; 1000000; 1000000; 1000000; 1000000; 1000000; 1000000; 1000000; 1000000; 1000000;
  1000000; 1000000; 1000000; 1000000; 1000000; 1000000; 1000000; 1000000; 1000000; 1000000];
  [0; 0; 0; 600000; 683333; 766667; 850000; 864444; 878889; 893333; 907778; 922222; 936667; 951111; 965556; 980000; 981333; 982667;
  984000; 985333; 986667; 988000; 989333; 990667; 992000; 993333; 994667; 996000; 997333; 998667; 1000000; 1000000; 1000000; 1000000;
  1000000; 1000000; 1000000; 1000000; 1000000; 1000000; 1000000; 1000000; 1000000; 1000000; 1000000; 1000000; 1000000; 1000000; 1000000;
  1000000; 1000000; 1000000; 1000000; 1000000; 1000000; 1000000; 1000000; 1000000; 1000000; 1000000; 1000000; 1000000; 1000000; 1000000;
  1000000; 1000000; 1000000; 1000000; 1000000; 1000000; 1000000; 1000000; 1000000; 1000000; 1000000; 1000000; 1000000; 1000000; 1000000;
  1000000; 1000000; 1000000; 1000000; 1000000; 1000000; 1000000; 1000000; 1000000; 1000000; 1000000; 1000000; 1000000; 1000000; 1000000;
  1000000; 1000000; 1000000; 1000000; 1000000; 1000000; 1000000; 1000000; 1000000; 1000000; 1000000; 1000000; 1000000; 1000000; 1000000;
  1000000; 1000000; 1000000; 1000000; 1000000; 1000000; 1000000; 1000000; 1000000; 1000000; 1000000; 1000000; 1000000; 1000000; 1000000;
  1000000; 1000000; 1000000; 1000000; 1000000; 1000000; 1000000; 1000000; 1000000; 1000000; 1000000; 1000000; 1000000; 1000000; 1000000;
  1000000; 1000000; 1000000; 1000000; 1000000; 1000000; 1000000; 1000000; 1000000; 1000000; 1000000; 1000000; 1000000; 1000000; 1000000;
  1000000; 1000000; 1000000; 1000000; 1000000; 1000000; 1000000; 1000000; 1000000; 1000000; 1000000; 1000000; 1000000; 1000000; 1000000;
  1000000; 1000000; 1000000; 1000000; 1000000; 1000000; 1000000; 1000000; 1000000; 1000000; 1000000];
  [0; 0; 0; 600000; 683333; 766667; 850000; 864444; 878889; 893333; 907778; 922222; 936667; 951111; 965556; 980000; 981333; 982667;
  984000; 985333; 986667; 988000; 989333; 990667; 992000; 993333; 994667; 996000; 997333; 998667; 1000000; 1000000; 1000000; 1000000;
  1000000; 1000000; 1000000; 1000000; 1000000; 1000000; 1000000; 1000000; 1000000; 1000000; 1000000; 1000000; 1000000; 1000000; 1000000;
  1000000; 1000000; 1000000; 1000000; 1000000; 1000000; 1000000; 1000000; 1000000; 1000000; 1000000; 1000000; 1000000; 1000000; 1000000;
  1000000; 1000000; 1000000; 1000000; 1000000; 1000000; 1000000; 1000000; 1000000; 1000000; 1000000; 1000000; 1000000; 1000000; 1000000;
  1000000; 1000000; 1000000; 1000000; 1000000; 1000000; 1000000; 1000000; 1000000; 1000000; 1000000; 1000000; 1000000; 1000000; 1000000;
  1000000; 1000000; 1000000; 1000000; 1000000; 1000000; 1000000; 1000000; 1000000; 1000000; 1000000; 1000000; 1000000; 1000000; 1000000;
  1000000; 1000000; 1000000; 1000000; 1000000; 1000000; 1000000; 1000000; 1000000; 1000000; 1000000; 1000000; 1000000; 1000000; 1000000;
  1000000; 1000000; 1000000; 1000000; 1000000; 1000000; 1000000; 1000000; 1000000; 1000000; 1000000; 1000000; 1000000; 1000000; 1000000;
  1000000; 1000000; 1000000; 1000000; 1000000; 1000000; 1000000; 1000000; 1000000; 1000000; 1000000; 1000000; 1000000; 1000000; 1000000;
  1000000; 1000000; 1000000; 1000000; 1000000; 1000000; 1000000; 1000000; 1000000; 1000000; 1000000; 1000000; 1000000; 1000000; 1000000;
  1000000; 1000000; 1000000; 1000000; 1000000; 1000000; 1000000; 1000000; 1000000; 1000000; 1000000; 1000000];
  [0; 0; 0; 600000; 683333; 766667; 850000; 864444; 878889; 893333; 907778; 922222; 936667; 951111; 965556; 980000; 981333; 982667;
  984000; 985333; 986667; 988000; 989333; 990667; 992000; 993333; 994667; 996000; 997333; 998667; 1000000; 1000000; 1000000; 1000000;
  1000000; 1000000; 1000000; 1000000; 1000000; 1000000; 1000000; 1000000; 1000000; 1000000; 1000000; 1000000; 1000000; 1000000; 1000000;
  1000000; 1000000; 1000000; 1000000; 1000000; 1000000; 1000000; 1000000; 1000000; 1000000; 1000000; 1000000; 1000000; 1000000; 1000000;
  1000000; 1000000; 1000000; 1000000; 1000000; 1000000; 1000000; 1000000; 1000000; 1000000; 1000000; 1000000; 1000000; 1000000; 1000000;
  1000000; 1000000; 1000000; 1000000; 1000000; 1000000; 1000000; 1000000; 1000000; 1000000; 1000000; 1000000; 1000000; 1000000; 1000000;
  1000000; 1000000; 1000000; 1000000; 1000000; 1000000; 1000000; 1000000; 1000000; 1000000; 1000000; 1000000; 1000000; 1000000; 1000000;
  1000000; 1000000; 1000000; 1000000; 1000000; 1000000; 1000000; 1000000; 1000000; 1000000; 1000000; 1000000; 1000000; 1000000; 1000000;
  1000000; 1000000; 1000000; 1000000; 1000000; 1000000; 1000000; 1000000; 1000000; 1000000; 1000000; 1000000; 1000000; 1000000; 1000000;
  1000000; 1000000; 1000000; 1000000; 1000000; 1000000; 1000000; 1000000; 1000000; 1000000; 1000000; 1000000; 1000000; 1000000; 1000000;
  1000000; 1000000; 1000000; 1000000; 1000000; 1000000; 1000000; 1000000; 1000000; 1000000; 1000000; 1000000; 1000000; 1000000; 1000000;
  1000000; 1000000; 1000000; 1000000; 1000000; 1000000; 1000000; 1000000; 1000000; 1000000; 1000000; 1000000; 1000000];
  [0; 0; 0; 600000; 683333; 766667; 850000; 864444; 878889; 893333; 907778; 922222; 936667; 951111; 965556; 980000; 981333; 982667;
  984000; 985333; 986667; 988000; 989333; 990667; 992000; 993333; 994667; 996000; 997333; 998667; 1000000; 1000000; 1000000; 1000000;
  1000000; 1000000; 1000000; 1000000; 1000000; 1000000; 1000000; 1000000; 1000000; 1000000; 1000000; 1000000; 1000000; 1000000; 1000000;
  1000000; 1000000; 1000000; 1000000; 1000000; 1000000; 1000000; 1000000; 1000000; 1000000; 1000000; 1000000; 1000000; 1000000; 1000000;
  1000000; 1000000; 1000000; 1000000; 1000000; 1000000; 1000000; 1000000; 1000000; 1000000; 1000000; 1000000; 1000000; 1000000; 1000000;
  1000000; 1000000; 1000000; 1000000; 1000000; 1000000; 1000000; 1000000; 1000000; 1000000; 1000000; 1000000; 1000000; 1000000; 1000000;
  1000000; 1000000; 1000000; 1000000; 1000000; 1000000; 1000000; 1000000; 1000000; 1000000; 1000000; 1000000; 1000000; 1000000; 1000000;
  1000000; 1000000; 1000000; 1000000; 1000000; 1000000; 1000000; 1000000; 1000000; 1000000; 1000000; 1000000; 1000000; 1000000; 1000000;
  1000000; 1000000; 1000000; 1000000; 1000000; 1000000; 1000000; 1000000; 1000000; 1000000; 1000000; 1000000; 1000000; 1000000; 1000000;
  1000000; 1000000; 1000000; 1000000; 1000000; 1000000; 1000000; 1000000; 1000000; 1000000; 1000000; 1000000; 1000000; 1000000; 1000000;
  1000000; 1000000; 1000000; 1000000; 1000000; 1000000; 1000000; 1000000; 1000000; 1000000; 1000000; 1000000; 1000000; 1000000; 1000000;
  1000000; 1000000; 1000000; 1000000; 1000000; 1000000; 1000000; 1000000; 1000000; 1000000; 1000000; 1000000; 1000000; 1000000];
  [0; 0; 0; 600000; 683333; 766667; 850000; 864444; 878889; 893333; 907778; 922222; 936667; 951111; 965556; 980000; 981333; 982667;
  984000; 985333; 986667; 988000; 989333; 990667; 992000; 993333; 994667; 996000; 997333; 998667; 1000000; 1000000; 1000000; 1000000;
  1000000; 1000000; 1000000; 1000000; 1000000; 1000000; 1000000; 1000000; 1000000; 1000000; 1000000; 1000000; 1000000; 1000000; 1000000;
  1000000; 1000000; 1000000; 1000000; 1000000; 1000000; 1000000; 1000000; 1000000; 1000000; 1000000; 1000000; 1000000; 1000000; 1000000;
  1000000; 1000000; 1000000; 1000000; 1000000; 1000000; 1000000; 1000000; 1000000; 1000000; 1000000; 1000000; 1000000; 1000000; 1000000;
  1000000; 1000000; 1000000; 1000000; 1000000; 1000000; 1000000; 1000000; 1000000; 1000000; 1000000; 1000000; 1000000; 1000000; 1000000;
  1000000; 1000000; 1000000; 1000000; 1000000; 1000000; 1000000; 1000000; 1000000; 1000000; 1000000; 1000000; 1000000; 1000000; 1000000;
  1000000; 1000000; 1000000; 1000000; 1000000; 1000000; 1000000; 1000000; 1000000; 1000000; 1000000; 1000000; 1000000; 1000000; 1000000;
  1000000; 1000000; 1000000; 1000000; 1000000; 1000000; 1000000; 1000000; 1000000; 1000000; 1000000; 1000000; 1000000; 1000000; 1000000;
  1000000; 1000000; 1000000; 1000000; 1000000; 1000000; 1000000; 1000000; 1000000; 1000000; 1000000; 1000000; 1000000; 1000000; 1000000;
  1000000; 1000000; 1000000; 1000000; 1000000; 1000000; 1000000; 1000000; 1000000; 1000000; 1000000; 1000000; 1000000; 1000000; 1000000;
  1000000; 1000000; 1000000; 1000000; 1000000; 1000000; 1000000; 1000000; 1000000; 1000000; 1000000; 1000000; 1000000; 1000000; 1000000];
  [0; 0; 0; 600000; 683333; 766667; 850000; 864444; 878889; 893333; 907778; 922222; 936667; 951111; 965556; 980000; 981333; 982667;
  984000; 985333; 986667; 988000; 989333; 990667; 992000; 993333; 994667; 996000; 997333; 998667; 1000000; 1000000; 1000000; 1000000;
  1000000; 1000000; 1000000; 1000000; 1000000; 1000000; 1000000; 1000000; 1000000; 1000000; 1000000; 1000000; 1000000; 1000000; 1000000;
  1000000; 1000000; 1000000; 1000000; 1000000; 1000000; 1000000; 1000000; 1000000; 1000000; 1000000; 1000000; 1000000; 1000000; 1000000;
  1000000; 1000000; 1000000; 1000000; 1000000; 1000000; 1000000; 1000000; 1000000; 1000000; 1000000; 1000000; 1000000; 1000000; 1000000;
  1000000; 1000000; 1000000; 1000000; 1000000; 1000000; 1000000; 1000000; 1000000; 1000000; 1000000; 1000000; 1000000; 1000000; 1000000;
  1000000; 1000000; 1000000; 1000000; 1000000; 1000000; 1000000; 1000000; 1000000; 1000000; 1000000; 1000000; 1000000; 1000000; 1000000;
  1000000; 1000000; 1000000; 1000000; 1000000; 1000000; 1000000; 1000000; 1000000; 1000000; 1000000; 1000000; 1000000; 1000000; 1000000;
  1000000; 1000000; 1000000; 1000000; 1000000; 1000000; 1000000; 1000000; 1000000; 1000000; 1000000; 1000000; 1000000; 1000000; 1000000;
  1000000; 1000000; 1000000; 1000000; 1000000; 1000000; 1000000; 1000000; 1000000; 1000000; 1000000; 1000000; 1000000; 1000000; 1000000;
  1000000; 1000000; 1000000; 1000000; 1000000; 1000000; 1000000; 1000000; 1000000; 1000000; 1000000; 1000000; 1000000; 1000000; 1000000;
  1000000; 1000000; 1000000; 1000000; 1000000; 1000000; 1000000; 1000000; 1000000; 1000000; 1000000; 1000000; 1000000; 1000000; 1000000;
  1000000];
  [0; 0; 0; 600000; 683333; 766667; 850000; 864444; 878889; 893333; 907778; 922222; 936667; 951111; 965556; 980000; 981333; 982667;
  984000; 985333; 986667; 988000; 989333; 990667; 992000; 993333; 994667; 996000; 997333; 998667; 1000000; 1000000; 1000000; 1000000;
  1000000; 1000000; 1000000; 1000000; 1000000; 1000000; 1000000; 1000000; 1000000; 1000000; 1000000; 1000000; 1000000; 1000000; 1000000;
  1000000; 1000000; 1000000; 1000000; 1000000; 1000000; 1000000; 1000000; 1000000; 1000000; 1000000; 1000000; 1000000; 1000000; 1000000;
  1000000; 1000000; 1000000; 1000000; 1000000; 1000000; 1000000; 1000000; 1000000; 1000000; 1000000; 1000000; 1000000; 1000000; 1000000;
  1000000; 1000000; 1000000; 1000000; 1000000; 1000000; 1000000; 1000000; 1000000; 1000000; 1000000; 1000000; 1000000; 1000000; 1000000;
  1000000; 1000000; 1000000; 1000000; 1000000; 1000000; 1000000; 1000000; 1000000; 1000000; 1000000; 1000000; 1000000; 1000000; 1000000;
  1000000; 1000000; 1000000; 1000000; 1000000; 1000000; 1000000; 1000000; 1000000; 1000000; 1000000; 1000000; 1000000; 1000000; 1000000;
  1000000; 1000000; 1000000; 1000000; 1000000; 1000000; 1000000; 1000000; 1000000; 1000000; 1000000; 1000000; 1000000; 1000000; 1000000;
  1000000; 1000000; 1000000; 1000000; 1000000; 1000000; 1000000; 1000000; 1000000; 1000000; 1000000; 1000000; 1000000; 1000000; 1000000;
  1000000; 1000000; 1000000; 1000000; 1000000; 1000000; 1000000; 1000000; 1000000; 1000000; 1000000; 1000000; 1000000; 1000000; 1000000;
  1000000; 1000000; 1000000; 1000000; 1000000; 1000000; 1000000; 1000000; 1000000; 1000000; 1000000; 1000000; 1000000; 1000000; 1000000;
  1000000; 1000000];
  [0; 0; 0; 600000; 683333; 766667; 850000; 864444; 878889; 893333; 907778; 922222; 936667; 951111; 965556; 980000; 981333; 982667;
  984000; 985333; 986667; 988000; 989333; 990667; 992000; 993333; 994667; 996000; 997333; 998667; 1000000; 1000000; 1000000; 1000000;
  1000000; 1000000; 1000000; 1000000; 1000000; 1000000; 1000000; 1000000; 1000000; 1000000; 1000000; 1000000; 1000000; 1000000; 1000000;
  1000000; 1000000; 1000000; 1000000; 1000000; 1000000; 1000000; 1000000; 1000000; 1000000; 1000000; 1000000; 1000000; 1000000; 1000000;
  1000000; 1000000; 1000000; 1000000; 1000000; 1000000; 1000000; 1000000; 1000000; 1000000; 1000000; 1000000; 1000000; 1000000; 1000000;
  1000000; 1000000; 1000000; 1000000; 1000000; 1000000; 1000000; 1000000; 1000000; 1000000; 1000000; 1000000; 1000000; 1000000; 1000000;
  1000000; 1000000; 1000000; 1000000; 1000000; 1000000; 1000000; 1000000; 1000000; 1000000; 1000000; 1000000; 1000000; 1000000; 1000000;
  1000000; 1000000; 1000000; 1000000; 1000000; 1000000; 1000000; 1000000; 1000000; 1000000; 1000000; 1000000; 1000000; 1000000; 1000000;
  1000000; 1000000; 1000000; 1000000; 1000000; 1000000; 1000000; 1000000; 1000000; 1000000; 1000000; 1000000; 1000000; 1000000; 1000000;
  1000000; 1000000; 1000000; 1000000; 1000000; 1000000; 1000000; 1000000; 1000000; 1000000; 1000000; 1000000; 1000000; 1000000; 1000000;
  1000000; 1000000; 1000000; 1000000; 1000000; 1000000; 1000000; 1000000; 1000000; 1000000; 1000000; 1000000; 1000000; 1000000; 1000000;
  1000000; 1000000; 1000000; 1000000; 1000000; 1000000; 1000000; 1000000; 1000000; 1000000; 1000000; 1000000; 1000000; 1000000; 1000000;
  1000000; 1000000; 1000000];
  [0; 0; 0; 600000; 683333; 766667; 850000; 864444; 878889; 893333; 907778; 922222; 936667; 951111; 965556; 980000; 981333; 982667;
  984000; 985333; 986667; 988000; 989333; 990667; 992000; 993333; 994667; 996000; 997333; 998667; 1000000; 1000000; 1000000; 1000000;
  1000000; 1000000; 1000000; 1000000; 1000000; 1000000; 1000000; 1000000; 1000000; 1000000; 1000000; 1000000; 1000000; 1000000; 1000000;
  1000000; 1000000; 1000000; 1000000; 1000000; 1000000; 1000000; 1000000; 1000000; 1000000; 1000000; 1000000; 1000000; 1000000; 1000000;
  1000000; 1000000; 1000000; 1000000; 1000000; 1000000; 1000000; 1000000; 1000000; 1000000; 1000000; 1000000; 1000000; 1000000; 1000000;
  1000000; 1000000; 1000000; 1000000; 1000000; 1000000; 1000000; 1000000; 1000000; 1000000; 1000000; 1000000; 1000000; 1000000; 1000000;
  1000000; 1000000; 1000000; 1000000; 1000000; 1000000; 1000000; 1000000; 1000000; 1000000; 1000000; 1000000; 1000000; 1000000; 1000000;
  1000000; 1000000; 1000000; 1000000; 1000000; 1000000; 1000000; 1000000; 1000000; 1000000; 1000000; 1000000; 1000000; 1000000; 1000000;
  1000000; 1000000; 1000000; 1000000; 1000000; 1000000; 1000000; 1000000; 1000000; 1000000; 1000000; 1000000; 1000000; 1000000; 1000000;
  1000000; 1000000; 1000000; 1000000; 1000000; 1000000; 1000000; 1000000; 1000000; 1000000; 1000000; 1000000; 1000000; 1000000; 1000000;
  1000000; 1000000; 1000000; 1000000; 1000000; 1000000; 1000000; 1000000; 1000000; 1000000; 1000000; 1000000; 1000000; 1000000; 1000000;
  1000000; 1000000; 1000000; 1000000; 1000000; 1000000; 1000000; 1000000; 1000000; 1000000; 1000000; 1000000; 1000000; 1000000; 1000000;
  1000000; 1000000; 1000000; 1000000];
  [0; 0; 0; 600000; 683333; 766667; 850000; 864444; 878889; 893333; 907778; 922222; 936667; 951111; 965556; 980000; 981333; 982667;
  984000; 985333; 986667; 988000; 989333; 990667; 992000; 993333; 994667; 996000; 997333; 998667; 1000000; 1000000; 1000000; 1000000;
  1000000; 1000000; 1000000; 1000000; 1000000; 1000000; 1000000; 1000000; 1000000; 1000000; 1000000; 1000000; 1000000; 1000000; 1000000;
  1000000; 1000000; 1000000; 1000000; 1000000; 1000000; 1000000; 1000000; 1000000; 1000000; 1000000; 1000000; 1000000; 1000000; 1000000;
  1000000; 1000000; 1000000; 1000000; 1000000; 1000000; 1000000; 1000000; 1000000; 1000000; 1000000; 1000000; 1000000; 1000000; 1000000;
  1000000; 1000000; 1000000; 1000000; 1000000; 1000000; 1000000; 1000000; 1000000; 1000000; 1000000; 1000000; 1000000; 1000000; 1000000;
  1000000; 1000000; 1000000; 1000000; 1000000; 1000000; 1000000; 1000000; 1000000; 1000000; 1000000; 1000000; 1000000; 1000000; 1000000;
  1000000; 1000000; 1000000; 1000000; 1000000; 1000000; 1000000; 1000000; 1000000; 1000000; 1000000; 1000000; 1000000; 1000000; 1000000;
  1000000; 1000000; 1000000; 1000000; 1000000; 1000000; 1000000; 1000000; 1000000; 1000000; 1000000; 1000000; 1000000; 1000000; 1000000;
  1000000; 1000000; 1000000; 1000000; 1000000; 1000000; 1000000; 1000000; 1000000; 1000000; 1000000; 1000000; 1000000; 1000000; 1000000;
  1000000; 1000000; 1000000; 1000000; 1000000; 1000000; 1000000; 1000000; 1000000; 1000000; 1000000; 1000000; 1000000; 1000000; 1000000;
  1000000; 1000000; 1000000; 1000000; 1000000; 1000000; 1000000; 1000000; 1000000; 1000000; 1000000; 1000000; 1000000; 1000000; 1000000;
  1000000; 1000000; 1000000; 1000000; 1000000];
  [0; 0; 0; 600000; 683333; 766667; 850000; 864444; 878889; 893333; 907778; 922222; 936667; 951111; 965556; 980000; 981333; 982667;
  984000; 985333; 986667; 988000; 989333; 990667; 992000; 993333; 994667; 996000; 997333; 998667; 1000000; 1000000; 1000000; 1000000;
  1000000; 1000000; 1000000; 1000000; 1000000; 1000000; 1000000; 1000000; 1000000; 1000000; 1000000; 1000000; 1000000; 1000000; 1000000;
  1000000; 1000000; 1000000; 1000000; 1000000; 1000000; 1000000; 1000000; 1000000; 1000000; 1000000; 1000000; 1000000; 1000000; 1000000;
  1000000; 1000000; 1000000; 1000000; 1000000; 1000000; 1000000; 1000000; 1000000; 1000000; 1000000; 1000000; 1000000; 1000000; 1000000;
  1000000; 1000000; 1000000; 1000000; 1000000; 1000000; 1000000; 1000000; 1000000; 1000000; 1000000; 1000000; 1000000; 1000000; 1000000;
  1000000; 1000000; 1000000; 1000000; 1000000; 1000000; 1000000; 1000000; 1000000; 1000000; 1000000; 1000000; 1000000; 1000000; 1000000;
  1000000; 1000000; 1000000; 1000000; 1000000; 1000000; 1000000; 1000000; 1000000; 1000000; 1000000; 1000000; 1000000; 1000000; 1000000;
  1000000; 1000000; 1000000; 1000000; 1000000; 1000000; 1000000; 1000000; 1000000; 1000000; 1000000; 1000000; 1000000; 1000000; 1000000;
  1000000; 1000000; 1000000; 1000000; 1000000; 1000000; 1000000; 1000000; 1000000; 1000000; 1000000; 1000000; 1000000; 1000000; 1000000;
  1000000; 1000000; 1000000; 1000000; 1000000; 1000000; 1000000; 1000000; 1000000; 1000000; 1000000; 1000000; 1000000; 1000000; 1000000;
  1000000; 1000000; 1000000; 1000000; 1000000; 1000000; 1000000; 1000000; 1000000; 1000000; 1000000; 1000000; 1000000; 1000000; 1000000;
  1000000; 1000000; 1000000; 1000000; 1000000; 1000000];
  [0; 0; 0; 600000; 683333; 766667; 850000; 864444; 878889; 893333; 907778; 922222; 936667; 951111; 965556; 980000; 981333; 982667;
  984000; 985333; 986667; 988000; 989333; 990667; 992000; 993333; 994667; 996000; 997333; 998667; 1000000; 1000000; 1000000; 1000000;
  1000000; 1000000; 1000000; 1000000; 1000000; 1000000; 1000000; 1000000; 1000000; 1000000; 1000000; 1000000; 1000000; 1000000; 1000000;
  1000000; 1000000; 1000000; 1000000; 1000000; 1000000; 1000000; 1000000; 1000000; 1000000; 1000000; 1000000; 1000000; 1000000; 1000000;
  1000000; 1000000; 1000000; 1000000; 1000000; 1000000; 1000000; 1000000; 1000000; 1000000; 1000000; 1000000; 1000000; 1000000; 1000000;
  1000000; 1000000; 1000000; 1000000; 1000000; 1000000; 1000000; 1000000; 1000000; 1000000; 1000000; 1000000; 1000000; 1000000; 1000000;
  1000000; 1000000; 1000000; 1000000; 1000000; 1000000; 1000000; 1000000; 1000000; 1000000; 1000000; 1000000; 1000000; 1000000; 1000000;
  1000000; 1000000; 1000000; 1000000; 1000000; 1000000; 1000000; 1000000; 1000000; 1000000; 1000000; 1000000; 1000000; 1000000; 1000000;
  1000000; 1000000; 1000000; 1000000; 1000000; 1000000; 1000000; 1000000; 1000000; 1000000; 1000000; 1000000; 1000000; 1000000; 1000000;
  1000000; 1000000; 1000000; 1000000; 1000000; 1000000; 1000000; 1000000; 1000000; 1000000; 1000000; 1000000; 1000000; 1000000; 1000000;
  1000000; 1000000; 1000000; 1000000; 1000000; 1000000; 1000000; 1000000; 1000000; 1000000; 1000000; 1000000; 1000000; 1000000; 1000000;
  1000000; 1000000; 1000000; 1000000; 1000000; 1000000; 1000000; 1000000; 1000000; 1000000; 1000000; 1000000; 1000000; 1000000; 1000000;
  1000000; 1000000; 1000000; 1000000; 1000000; 1000000; 1000000];
  [0; 0; 0; 600000; 683333; 766667; 850000; 864444; 878889; 893333; 907778; 922222; 936667; 951111; 965556; 980000; 981333; 982667;
  984000; 985333; 986667; 988000; 989333; 990667; 992000; 993333; 994667; 996000; 997333; 998667; 1000000; 1000000; 1000000; 1000000;
  1000000; 1000000; 1000000; 1000000; 1000000; 1000000; 1000000; 1000000; 1000000; 1000000; 1000000; 1000000; 1000000; 1000000; 1000000;
  1000000; 1000000; 1000000; 1000000; 1000000; 1000000; 1000000; 1000000; 1000000; 1000000; 1000000; 1000000; 1000000; 1000000; 1000000;
  1000000; 1000000; 1000000; 1000000; 1000000; 1000000; 1000000; 1000000; 1000000; 1000000; 1000000; 1000000; 1000000; 1000000; 1000000;
  1000000; 1000000; 1000000; 1000000; 1000000; 1000000; 1000000; 1000000; 1000000; 1000000; 1000000; 1000000; 1000000; 1000000; 1000000;
  1000000; 1000000; 1000000; 1000000; 1000000; 1000000; 1000000; 1000000; 1000000; 1000000; 1000000; 1000000; 1000000; 1000000; 1000000;
  1000000; 1000000; 1000000; 1000000; 1000000; 1000000; 1000000; 1000000; 1000000; 1000000; 1000000; 1000000; 1000000; 1000000; 1000000;
  1000000; 1000000; 1000000; 1000000; 1000000; 1000000; 1000000; 1000000; 1000000; 1000000; 1000000; 1000000; 1000000; 1000000; 1000000;
  1000000; 1000000; 1000000; 1000000; 1000000; 1000000; 1000000; 1000000; 1000000; 1000000; 1000000; 1000000; 1000000; 1000000; 1000000;
  1000000; 1000000; 1000000; 1000000; 1000000; 1000000; 1000000; 1000000; 1000000; 1000000; 1000000; 1000000; 1000000; 1000000; 1000000;
  1000000; 1000000; 1000000; 1000000; 1000000; 1000000; 1000000; 1000000; 1000000; 1000000; 1000000; 1000000; 1000000; 1000000; 1000000;
  1000000; 1000000; 1000000; 1000000; 1000000; 1000000; 1000000; 1000000];
  [0; 0; 0; 600000; 683333; 766667; 850000; 864444; 878889; 893333; 907778; 922222; 936667; 951111; 965556; 980000; 981333; 982667;
  984000; 985333; 986667; 988000; 989333; 990667; 992000; 993333; 994667; 996000; 997333; 998667; 1000000; 1000000; 1000000; 1000000;
  1000000; 1000000; 1000000; 1000000; 1000000; 1000000; 1000000; 1000000; 1000000; 1000000; 1000000; 1000000; 1000000; 1000000; 1000000;
  1000000; 1000000; 1000000; 1000000; 1000000; 1000000; 1000000; 1000000; 1000000; 1000000; 1000000; 1000000; 1000000; 1000000; 1000000;
  1000000; 1000000; 1000000; 1000000; 1000000; 1000000; 1000000; 1000000; 1000000; 1000000; 1000000; 1000000; 1000000; 1000000; 1000000;
  1000000; 1000000; 1000000; 1000000; 1000000; 1000000; 1000000; 1000000; 1000000; 1000000; 1000000; 1000000; 1000000; 1000000; 1000000;
  1000000; 1000000; 1000000; 1000000; 1000000; 1000000; 1000000; 1000000; 1000000; 1000000; 1000000; 1000000; 1000000; 1000000; 1000000;
  1000000; 1000000; 1000000; 1000000; 1000000; 1000000; 1000000; 1000000; 1000000; 1000000; 1000000; 1000000; 1000000; 1000000; 1000000;
  1000000; 1000000; 1000000; 1000000; 1000000; 1000000; 1000000; 1000000; 1000000; 1000000; 1000000; 1000000; 1000000; 1000000; 1000000;
  1000000; 1000000; 1000000; 1000000; 1000000; 1000000; 1000000; 1000000; 1000000; 1000000; 1000000; 1000000; 1000000; 1000000; 1000000;
  1000000; 1000000; 1000000; 1000000; 1000000; 1000000; 1000000; 1000000; 1000000; 1000000; 1000000; 1000000; 1000000; 1000000; 1000000;
  1000000; 1000000; 1000000; 1000000; 1000000; 1000000; 1000000; 1000000; 1000000; 1000000; 1000000; 1000000; 1000000; 1000000; 1000000;
  1000000; 1000000; 1000000; 1000000; 1000000; 1000000; 1000000; 1000000; 1000000];
  [0; 0; 0; 600000; 683333; 766667; 850000; 864444; 878889; 893333; 907778; 922222; 936667; 951111; 965556; 980000; 981333; 982667;
  984000; 985333; 986667; 988000; 989333; 990667; 992000; 993333; 994667; 996000; 997333; 998667; 1000000; 1000000; 1000000; 1000000;
  1000000; 1000000; 1000000; 1000000; 1000000; 1000000; 1000000; 1000000; 1000000; 1000000; 1000000; 1000000; 1000000; 1000000; 1000000;
  1000000; 1000000; 1000000; 1000000; 1000000; 1000000; 1000000; 1000000; 1000000; 1000000; 1000000; 1000000; 1000000; 1000000; 1000000;
  1000000; 1000000; 1000000; 1000000; 1000000; 1000000; 1000000; 1000000; 1000000; 1000000; 1000000; 1000000; 1000000; 1000000; 1000000;
  1000000; 1000000; 1000000; 1000000; 1000000; 1000000; 1000000; 1000000; 1000000; 1000000; 1000000; 1000000; 1000000; 1000000; 1000000;
  1000000; 1000000; 1000000; 1000000; 1000000; 1000000; 1000000; 1000000; 1000000; 1000000; 1000000; 1000000; 1000000; 1000000; 1000000;
  1000000; 1000000; 1000000; 1000000; 1000000; 1000000; 1000000; 1000000; 1000000; 1000000; 1000000; 1000000; 1000000; 1000000; 1000000;
  1000000; 1000000; 1000000; 1000000; 1000000; 1000000; 1000000; 1000000; 1000000; 1000000; 1000000; 1000000; 1000000; 1000000; 1000000;
  1000000; 1000000; 1000000; 1000000; 1000000; 1000000; 1000000; 1000000; 1000000; 1000000; 1000000; 1000000; 1000000; 1000000; 1000000;
  1000000; 1000000; 1000000; 1000000; 1000000; 1000000; 1000000; 1000000; 1000000; 1000000; 1000000; 1000000; 1000000; 1000000; 1000000;
  1000000; 1000000; 1000000; 1000000; 1000000; 1000000; 1000000; 1000000; 1000000; 1000000; 1000000; 1000000; 1000000; 1000000; 1000000;
  1000000; 1000000; 1000000; 1000000; 1000000; 1000000; 1000000; 1000000; 1000000; 1000000];
  [0; 0; 0; 600000; 683333; 766667; 850000; 864444; 878889; 893333; 907778; 922222; 936667; 951111; 965556; 980000; 981333; 982667;
  984000; 985333; 986667; 988000; 989333; 990667; 992000; 993333; 994667; 996000; 997333; 998667; 1000000; 1000000; 1000000; 1000000;
  1000000; 1000000; 1000000; 1000000; 1000000; 1000000; 1000000; 1000000; 1000000; 1000000; 1000000; 1000000; 1000000; 1000000; 1000000;
  1000000; 1000000; 1000000; 1000000; 1000000; 1000000; 1000000; 1000000; 1000000; 1000000; 1000000; 1000000; 1000000; 1000000; 1000000;
  1000000; 1000000; 1000000; 1000000; 1000000; 1000000; 1000000; 1000000; 1000000; 1000000; 1000000; 1000000; 1000000; 1000000; 1000000;
  1000000; 1000000; 1000000; 1000000; 1000000; 1000000; 1000000; 1000000; 1000000; 1000000; 1000000; 1000000; 1000000; 1000000; 1000000;
  1000000; 1000000; 1000000; 1000000; 1000000; 1000000; 1000000; 1000000; 1000000; 1000000; 1000000; 1000000; 1000000; 1000000; 1000000;
  1000000; 1000000; 1000000; 1000000; 1000000; 1000000; 1000000; 1000000; 1000000; 1000000; 1000000; 1000000; 1000000; 1000000; 1000000;
  1000000; 1000000; 1000000; 1000000; 1000000; 1000000; 1000000; 1000000; 1000000; 1000000; 1000000; 1000000; 1000000; 1000000; 1000000;
  1000000; 1000000; 1000000; 1000000; 1000000; 1000000; 1000000; 1000000; 1000000; 1000000; 1000000; 1000000; 1000000; 1000000; 1000000;
  1000000; 1000000; 1000000; 1000000; 1000000; 1000000; 1000000; 1000000; 1000000; 1000000; 1000000; 1000000; 1000000; 1000000; 1000000;
  1000000; 1000000; 1000000; 1000000; 1000000; 1000000; 1000000; 1000000; 1000000; 1000000; 1000000; 1000000; 1000000; 1000000; 1000000;
  1000000; 1000000; 1000000; 1000000; 1000000; 1000000; 1000000; 1000000; 1000000; 1000000; 1000000];
  [0; 0; 0; 600000; 683333; 766667; 850000; 864444; 878889; 893333; 907778; 922222; 936667; 951111; 965556; 980000; 981333; 982667;
  984000; 985333; 986667; 988000; 989333; 990667; 992000; 993333; 994667; 996000; 997333; 998667; 1000000; 1000000; 1000000; 1000000;
  1000000; 1000000; 1000000; 1000000; 1000000; 1000000; 1000000; 1000000; 1000000; 1000000; 1000000; 1000000; 1000000; 1000000; 1000000;
  1000000; 1000000; 1000000; 1000000; 1000000; 1000000; 1000000; 1000000; 1000000; 1000000; 1000000; 1000000; 1000000; 1000000; 1000000;
  1000000; 1000000; 1000000; 1000000; 1000000; 1000000; 1000000; 1000000; 1000000; 1000000; 1000000; 1000000; 1000000; 1000000; 1000000;
  1000000; 1000000; 1000000; 1000000; 1000000; 1000000; 1000000; 1000000; 1000000; 1000000; 1000000; 1000000; 1000000; 1000000; 1000000;
  1000000; 1000000; 1000000; 1000000; 1000000; 1000000; 1000000; 1000000; 1000000; 1000000; 1000000; 1000000; 1000000; 1000000; 1000000;
  1000000; 1000000; 1000000; 1000000; 1000000; 1000000; 1000000; 1000000; 1000000; 1000000; 1000000; 1000000; 1000000; 1000000; 1000000;
  1000000; 1000000; 1000000; 1000000; 1000000; 1000000; 1000000; 1000000; 1000000; 1000000; 1000000; 1000000; 1000000; 1000000; 1000000;
  1000000; 1000000; 1000000; 1000000; 1000000; 1000000; 1000000; 1000000; 1000000; 1000000; 1000000; 1000000; 1000000; 1000000; 1000000;
  1000000; 1000000; 1000000; 1000000; 1000000; 1000000; 1000000; 1000000; 1000000; 1000000; 1000000; 1000000; 1000000; 1000000; 1000000;
  1000000; 1000000; 1000000; 1000000; 1000000; 1000000; 1000000; 1000000; 1000000; 1000000; 1000000; 1000000; 1000000; 1000000; 1000000;
  1000000; 1000000; 1000000; 1000000; 1000000; 1000000; 1000000; 1000000; 1000000; 1000000; 1000000; 1000000];
  [0; 0; 0; 600000; 683333; 766667; 850000; 864444; 878889; 893333; 907778; 922222; 936667; 951111; 965556; 980000; 981333; 982667;
  984000; 985333; 986667; 988000; 989333; 990667; 992000; 993333; 994667; 996000; 997333; 998667; 1000000; 1000000; 1000000; 1000000;
  1000000; 1000000; 1000000; 1000000; 1000000; 1000000; 1000000; 1000000; 1000000; 1000000; 1000000; 1000000; 1000000; 1000000; 1000000;
  1000000; 1000000; 1000000; 1000000; 1000000; 1000000; 1000000; 1000000; 1000000; 1000000; 1000000; 1000000; 1000000; 1000000; 1000000;
  1000000; 1000000; 1000000; 1000000; 1000000; 1000000; 1000000; 1000000; 1000000; 1000000; 1000000; 1000000; 1000000; 1000000; 1000000;
  1000000; 1000000; 1000000; 1000000; 1000000; 1000000; 1000000; 1000000; 1000000; 1000000; 1000000; 1000000; 1000000; 1000000; 1000000;
  1000000; 1000000; 1000000; 1000000; 1000000; 1000000; 1000000; 1000000; 1000000; 1000000; 1000000; 1000000; 1000000; 1000000; 1000000;
  1000000; 1000000; 1000000; 1000000; 1000000; 1000000; 1000000; 1000000; 1000000; 1000000; 1000000; 1000000; 1000000; 1000000; 1000000;
  1000000; 1000000; 1000000; 1000000; 1000000; 1000000; 1000000; 1000000; 1000000; 1000000; 1000000; 1000000; 1000000; 1000000; 1000000;
  1000000; 1000000; 1000000; 1000000; 1000000; 1000000; 1000000; 1000000; 1000000; 1000000; 1000000; 1000000; 1000000; 1000000; 1000000;
  1000000; 1000000; 1000000; 1000000; 1000000; 1000000; 1000000; 1000000; 1000000; 1000000; 1000000; 1000000; 1000000; 1000000; 1000000;
  1000000; 1000000; 1000000; 1000000; 1000000; 1000000; 1000000; 1000000; 1000000; 1000000; 1000000; 1000000; 1000000; 1000000; 1000000;
  1000000; 1000000; 1000000; 1000000; 1000000; 1000000; 1000000; 1000000; 1000000; 1000000; 1000000; 1000000; 1000000];
  [0; 0; 0; 600000; 683333; 766667; 850000; 864444; 878889; 893333; 907778; 922222; 936667; 951111; 965556; 980000; 981333; 982667;
  984000; 985333; 986667; 988000; 989333; 990667; 992000; 993333; 994667; 996000; 997333; 998667; 1000000; 1000000; 1000000; 1000000;
  1000000; 1000000; 1000000; 1000000; 1000000; 1000000; 1000000; 1000000; 1000000; 1000000; 1000000; 1000000; 1000000; 1000000; 1000000;
  1000000; 1000000; 1000000; 1000000; 1000000; 1000000; 1000000; 1000000; 1000000; 1000000; 1000000; 1000000; 1000000; 1000000; 1000000;
  1000000; 1000000; 1000000; 1000000; 1000000; 1000000; 1000000; 1000000; 1000000; 1000000; 1000000; 1000000; 1000000; 1000000; 1000000;
  1000000; 1000000; 1000000; 1000000; 1000000; 1000000; 1000000; 1000000; 1000000; 1000000; 1000000; 1000000; 1000000; 1000000; 1000000;
  1000000; 1000000; 1000000; 1000000; 1000000; 1000000; 1000000; 1000000; 1000000; 1000000; 1000000; 1000000; 1000000; 1000000; 1000000;
  1000000; 1000000; 1000000; 1000000; 1000000; 1000000; 1000000; 1000000; 1000000; 1000000; 1000000; 1000000; 1000000; 1000000; 1000000;
  1000000; 1000000; 1000000; 1000000; 1000000; 1000000; 1000000; 1000000; 1000000; 1000000; 1000000; 1000000; 1000000; 1000000; 1000000;
  1000000; 1000000; 1000000; 1000000; 1000000; 1000000; 1000000; 1000000; 1000000; 1000000; 1000000; 1000000; 1000000; 1000000; 1000000;
  1000000; 1000000; 1000000; 1000000; 1000000; 1000000; 1000000; 1000000; 1000000; 1000000; 1000000; 1000000; 1000000; 1000000; 1000000;
  1000000; 1000000; 1000000; 1000000; 1000000; 1000000; 1000000; 1000000; 1000000; 1000000; 1000000; 1000000; 1000000; 1000000; 1000000;
  1000000; 1000000; 1000000; 1000000; 1000000; 1000000; 1000000; 1000000; 1000000; 1000000; 1000000; 1000000; 1000000; 1000000];
  [0; 0; 0; 600000; 683333; 766667; 850000; 864444; 878889; 893333; 907778; 922222; 936667; 951111; 965556; 980000; 981333; 982667;
  984000; 985333; 986667; 988000; 989333; 990667; 992000; 993333; 994667; 996000; 997333; 998667; 1000000; 1000000; 1000000; 1000000;
  1000000; 1000000; 1000000; 1000000; 1000000; 1000000; 1000000; 1000000; 1000000; 1000000; 1000000; 1000000; 1000000; 1000000; 1000000;
  1000000; 1000000; 1000000; 1000000; 1000000; 1000000; 1000000; 1000000; 1000000; 1000000; 1000000; 1000000; 1000000; 1000000; 1000000;
  1000000; 1000000; 1000000; 1000000; 1000000; 1000000; 1000000; 1000000; 1000000; 1000000; 1000000; 1000000; 1000000; 1000000; 1000000;
  1000000; 1000000; 1000000; 1000000; 1000000; 1000000; 1000000; 1000000; 1000000; 1000000; 1000000; 1000000; 1000000; 1000000; 1000000;
  1000000; 1000000; 1000000; 1000000; 1000000; 1000000; 1000000; 1000000; 1000000; 1000000; 1000000; 1000000; 1000000; 1000000; 1000000;
  1000000; 1000000; 1000000; 1000000; 1000000; 1000000; 1000000; 1000000; 1000000; 1000000; 1000000; 1000000; 1000000; 1000000; 1000000;
  1000000; 1000000; 1000000; 1000000; 1000000; 1000000; 1000000; 1000000; 1000000; 1000000; 1000000; 1000000; 1000000; 1000000; 1000000;
  1000000; 1000000; 1000000; 1000000; 1000000; 1000000; 1000000; 1000000; 1000000; 1000000; 1000000; 1000000; 1000000; 1000000; 1000000;
  1000000; 1000000; 1000000; 1000000; 1000000; 1000000; 1000000; 1000000; 1000000; 1000000; 1000000; 1000000; 1000000; 1000000; 1000000;
  1000000; 1000000; 1000000; 1000000; 1000000; 1000000; 1000000; 1000000; 1000000; 1000000; 1000000; 1000000; 1000000; 1000000; 1000000;
  1000000; 1000000; 1000000; 1000000; 1000000; 1000000; 1000000; 1000000; 1000000; 1000000; 1000000; 1000000; 1000000; 1000000; 1000000];
  [0; 0; 0; 600000; 683333; 766667; 850000; 864444; 878889; 893333; 907778; 922222; 936667; 951111; 965556; 980000; 981333; 982667;
  984000; 985333; 986667; 988000; 989333; 990667; 992000; 993333; 994667; 996000; 997333; 998667; 1000000; 1000000; 1000000; 1000000;
  1000000; 1000000; 1000000; 1000000; 1000000; 1000000; 1000000; 1000000; 1000000; 1000000; 1000000; 1000000; 1000000; 1000000; 1000000;
  1000000; 1000000; 1000000; 1000000; 1000000; 1000000; 1000000; 1000000; 1000000; 1000000; 1000000; 1000000; 1000000; 1000000; 1000000;
  1000000; 1000000; 1000000; 1000000; 1000000; 1000000; 1000000; 1000000; 1000000; 1000000; 1000000; 1000000; 1000000; 1000000; 1000000;
  1000000; 1000000; 1000000; 1000000; 1000000; 1000000; 1000000; 1000000; 1000000; 1000000; 1000000; 1000000; 1000000; 1000000; 1000000;
  1000000; 1000000; 1000000; 1000000; 1000000; 1000000; 1000000; 1000000; 1000000; 1000000; 1000000; 1000000; 1000000; 1000000; 1000000;
  1000000; 1000000; 1000000; 1000000; 1000000; 1000000; 1000000; 1000000; 1000000; 1000000; 1000000; 1000000; 1000000; 1000000; 1000000;
  1000000; 1000000; 1000000; 1000000; 1000000; 1000000; 1000000; 1000000; 1000000; 1000000; 1000000; 1000000; 1000000; 1000000; 1000000;
  1000000; 1000000; 1000000; 1000000; 1000000; 1000000; 1000000; 1000000; 1000000; 1000000; 1000000; 1000000; 1000000; 1000000; 1000000;
  1000000; 1000000; 1000000; 1000000; 1000000; 1000000; 1000000; 1000000; 1000000; 1000000; 1000000; 1000000; 1000000; 1000000; 1000000;
  1000000; 1000000; 1000000; 1000000; 1000000; 1000000; 1000000; 1000000; 1000000; 1000000; 1000000; 1000000; 1000000; 1000000; 1000000;
  1000000; 1000000; 1000000; 1000000; 1000000; 1000000; 1000000; 1000000; 1000000; 1000000; 1000000; 1000000; 1000000; 1000000; 1000000;
  1000000];
  [0; 0; 0; 600000; 683333; 766667; 850000; 864444; 878889; 893333; 907778; 922222; 936667; 951111; 965556; 980000; 981333; 982667;
  984000; 985333; 986667; 988000; 989333; 990667; 992000; 993333; 994667; 996000; 997333; 998667; 1000000; 1000000; 1000000; 1000000;
  1000000; 1000000; 1000000; 1000000; 1000000; 1000000; 1000000; 1000000; 1000000; 1000000; 1000000; 1000000; 1000000; 1000000; 1000000;
  1000000; 1000000; 1000000; 1000000; 1000000; 1000000; 1000000; 1000000; 1000000; 1000000; 1000000; 1000000; 1000000; 1000000; 1000000;
  1000000; 1000000; 1000000; 1000000; 1000000; 1000000; 1000000; 1000000; 1000000; 1000000; 1000000; 1000000; 1000000; 1000000; 1000000;
  1000000; 1000000; 1000000; 1000000; 1000000; 1000000; 1000000; 1000000; 1000000; 1000000; 1000000; 1000000; 1000000; 1000000; 1000000;
  1000000; 1000000; 1000000; 1000000; 1000000; 1000000; 1000000; 1000000; 1000000; 1000000; 1000000; 1000000; 1000000; 1000000; 1000000;
  1000000; 1000000; 1000000; 1000000; 1000000; 1000000; 1000000; 1000000; 1000000; 1000000; 1000000; 1000000; 1000000; 1000000; 1000000;
  1000000; 1000000; 1000000; 1000000; 1000000; 1000000; 1000000; 1000000; 1000000; 1000000; 1000000; 1000000; 1000000; 1000000; 1000000;
  1000000; 1000000; 1000000; 1000000; 1000000; 1000000; 1000000; 1000000; 1000000; 1000000; 1000000; 1000000; 1000000; 1000000; 1000000;
  1000000; 1000000; 1000000; 1000000; 1000000; 1000000; 1000000; 1000000; 1000000; 1000000; 1000000; 1000000; 1000000; 1000000; 1000000;
  1000000; 1000000; 1000000; 1000000; 1000000; 1000000; 1000000; 1000000; 1000000; 1000000; 1000000; 1000000; 1000000; 1000000; 1000000;
  1000000; 1000000; 1000000; 1000000; 1000000; 1000000; 1000000; 1000000; 1000000; 1000000; 1000000; 1000000; 1000000; 1000000; 1000000;
  1000000; 1000000]
].
Definition eff_VohlDavis : list N := concat rows_VohlDavis.
