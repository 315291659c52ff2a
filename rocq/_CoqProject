-Q theories Verif
theories/Base.v
theories/SlotModel.v
theories/SlotSpec.v
theories/SlotProofs.v
theories/SlotJobs.v
theories/SlotLookup.v
theories/SlotOps.v
theories/CalendarModel.v
theories/CalendarProps.v
theories/AcctModel.v
theories/AcctSpec.v
theories/AcctProofs.v
theories/AcctProps.v
theories/TimeModel.v
theories/TimeProps.v
theories/SlotCheck.v
theories/SlotProps.v
theories/SlotShare.v
theories/LoadModel.v
theories/LoadProofs.v
theories/LoadProps.v
theories/HierarchyModel.v
theories/HierarchySpec.v
theories/HierarchyProofs.v
theories/HierarchyProps.v
theories/QuotasModel.v
theories/QuotasSpec.v
theories/QuotasProofs.v
theories/SchedModel.v
theories/SchedSpec.v
theories/SchedProofs.v
theories/SchedAssign.v
theories/SchedRound.v
theories/SchedProps.v
theories/QuotasProps.v
theories/JobModel.v
theories/JobSpec.v
theories/JobProofs.v
theories/JobLife.v
theories/JobProps.v
theories/JobKill.v
theories/JobDelete.v
theories/WalltimeModel.v
theories/WalltimeProps.v
theories/AlmightyModel.v
theories/AlmightyProps.v
theories/CommanderModel.v
theories/CommanderProps.v
theories/ApiModel.v
theories/ApiSpec.v
theories/ApiProps.v
theories/NodeModel.v
theories/NodeSpec.v
theories/NodeProps.v
theories/GanttModel.v
theories/GanttSpec.v
theories/GanttProps.v
theories/ResvModel.v
theories/ResvSpec.v
theories/ResvProps.v
theories/PrioModel.v
theories/PrioSpec.v
theories/PrioProps.v
theories/ReqModel.v
theories/ReqSpec.v
theories/ReqProps.v
theories/ResModel.v
theories/ResProps.v
theories/CondProps.v
theories/SubmitModel.v
theories/SubmitSpec.v
theories/SubmitProofs.v
theories/SubmitRead.v
theories/SubmitAny.v
theories/SubmitProps.v
theories/EnergyModel.v
theories/EnergyProofs.v
theories/EnergyProps.v
theories/ResubModel.v
theories/ResubSpec.v
theories/ResubProofs.v
theories/ResubProps.v
theories/ResubEvents.v
theories/LaunchModel.v
theories/LaunchSpec.v
theories/LaunchProps.v
theories/LaunchPing.v
theories/RoundModel.v
theories/RoundSpec.v
theories/RoundProofs.v
theories/RoundProps.v
theories/RoundLoad.v
theories/SPrioModel.v
theories/SPrioSpec.v
theories/SPrioProps.v
theories/ListModel.v
theories/ListSpec.v
theories/ListProps.v
theories/AdmModel.v
theories/AdmSpec.v
theories/AdmProps.v
theories/FrontModel.v
theories/FrontSpec.v
theories/FrontProofs.v
theories/FrontProps.v
theories/ConfModel.v
theories/ConfSpec.v
theories/ConfProps.v
theories/AdminModel.v
theories/AdminSpec.v
theories/AdminProps.v
theories/NsetModel.v
theories/NsetSpec.v
theories/NsetProps.v
theories/PhxModel.v
theories/PhxSpec.v
theories/PhxProps.v
theories/QfileModel.v
theories/QfileSpec.v
theories/QfileText.v
theories/QfileFloat.v
theories/QfileProps.v
theories/FifoModel.v
theories/FifoProps.v
theories/QfileExp.v
theories/CmdModel.v
theories/CmdSpec.v
theories/CmdProps.v
theories/WcmdModel.v
theories/WcmdSpec.v
theories/WcmdProps.v
theories/NodesModel.v
theories/NodesSpec.v
theories/NodesProps.v
theories/AcctRepModel.v
theories/AcctRepSpec.v
theories/AcctRepProps.v
theories/StatModel.v
theories/StatSpec.v
theories/StatProps.v
theories/BasicModel.v
theories/BasicProps.v
theories/CycleModel.v
theories/CycleProps.v
