-Q theories Verif
theories/Base.v
theories/BaseProofs.v
theories/HskpngModel.v
theories/HskpngProofs.v
theories/HskpngProps.v
theories/CoalModel.v
theories/CoalProofs.v
theories/CoalPairProofs.v
theories/CoalPassProofs.v
theories/CoalProps.v
theories/RcycModel.v
theories/RcycProofs.v
theories/RcycProps.v
theories/SpaceModel.v
theories/SpaceProofs.v
theories/SpaceProps.v
theories/GridProps.v
theories/ProtoModel.v
theories/ProtoProps.v
theories/ProtoProps2.v
theories/SanityProps.v
theories/ProtoProps3.v
theories/ThermoModel.v
theories/ThermoProofs.v
theories/ThermoProps.v
theories/Blk1mModel.v
theories/Blk1mProofs.v
theories/Blk1mProps.v
theories/Blk1mIceProps.v
theories/DistModel.v
theories/DistProps.v
theories/ExchProofs.v
theories/ExchInv.v
theories/ExchProps.v
theories/MotionModel.v
theories/MotionProps.v
theories/MotionProps2.v
theories/VtermProps.v
theories/TomsModel.v
theories/TomsProps.v
theories/CondModel.v
theories/CondProps.v
theories/KoehlerModel.v
theories/KoehlerProps.v
theories/MomsModel.v
theories/CondPassModel.v
theories/MomsProofs.v
theories/CondPassProofs.v
theories/CondPassProps.v
theories/CondPassProps2.v
theories/CondPassProps3.v
theories/CondPassProps4.v
theories/FreezeProps.v
theories/IceInitModel.v
theories/IceInitProps.v
theories/DiagModel.v
theories/DiagProps.v
theories/E2lModel.v
theories/E2lProps.v
theories/InCloudModel.v
theories/InCloudProps.v
theories/PoolModel.v
theories/PoolProofs.v
theories/PoolProps.v
theories/InitModel.v
theories/InitProofs.v
theories/InitProps.v
theories/SrcProps.v
theories/MatchModel.v
theories/MatchProps.v
theories/KernelModel.v
theories/KernelProps.v
theories/KernelFloat.v
theories/KernelTurb.v
theories/RlxModel.v
theories/RlxProps.v
theories/RlxCases.v
theories/MatchPc.v
theories/Blk2mModel.v
theories/Blk2mProps.v
theories/Blk2mCases.v
theories/Blk2mProps2.v
theories/Blk2mFall.v
theories/Blk2mColumn.v
theories/Blk2mInst.v
theories/ChemModel.v
theories/ChemHenry.v
theories/ChemDissoc.v
theories/ChemReact.v
theories/ChemStep.v
theories/ChemDry.v
theories/ChemConst.v
theories/CoalMean.v
theories/CoalMeanProps.v
theories/TurbModel.v
theories/TurbProps.v
theories/VelDivModel.v
theories/VelDivProps.v
theories/GaussInt.v
theories/LognormModel.v
theories/LognormProps.v
theories/ChemHistory.v
theories/McudaModel.v
theories/McudaInv.v
theories/McudaProps.v
theories/McudaDiagModel.v
theories/McudaDiagProps.v
theories/PyModel.v
theories/PyProps.v
theories/StepModel.v
theories/StepProps.v
theories/EffHall.v
theories/EffHallDavis.v
theories/EffVohlDavis.v
theories/EffHallPinskySc.v
theories/EffHallPinsky1000.v
theories/EffHallPinskyCb.v
theories/EffModel.v
theories/EffProps.v
theories/CourModel.v
theories/CourProofs.v
theories/CourProps.v
theories/KinModel.v
theories/KinProps.v
theories/KinDrive.v
theories/AttrModel.v
theories/AttrProps.v
theories/MemoModel.v
theories/MemoProps.v
theories/MemoCond.v
theories/Kin1mModel.v
theories/Kin1mProps.v
theories/Kin2mModel.v
theories/Kin2mProps.v
theories/Kin2mCases.v
theories/OutModel.v
theories/OutProps.v
theories/OutProps2.v
theories/LgrModel.v
theories/LgrProps.v
theories/StepWet.v
theories/StepSol.v
theories/StepChemModel.v
theories/StepChem.v
theories/StepMpiModel.v
theories/StepMpi.v
theories/StepMpi2.v
theories/StepMpiSol.v
theories/VtermModel.v
theories/VtermPoly.v
theories/VtermOrder.v
theories/VtermFast.v
theories/VtermStokes.v
theories/VtermAir.v
theories/StartModel.v
theories/StartProps.v
theories/MassDens.v
