-Q theories Verif
theories/CSem.v
theories/ArrayModel.v
theories/ArraySpec.v
theories/ArrayProofs.v
theories/ArrayRefine.v
theories/ArrayProps.v
theories/ArrayExact.v
theories/FifoSpec.v
theories/Ring.v
theories/QueueModel.v
theories/QueueProofs.v
theories/QueueProps.v
theories/MqueueModel.v
theories/MqueueSpec.v
theories/MqueueProofs.v
theories/MqueueProps.v
theories/SpscModel.v
theories/SpscProofs.v
theories/SpscProps.v
theories/SpscTso.v
theories/SpscReset.v
theories/BisyncModel.v
theories/BisyncSpec.v
theories/BisyncProofs.v
theories/BisyncProps.v
theories/Link.v
theories/BbufModel.v
theories/BbufSpec.v
theories/BbufProofs.v
theories/BbufProofs2.v
theories/BbufProofs3.v
theories/BbufProps.v
theories/BbufProps2.v
theories/BbufExact.v
theories/BvecModel.v
theories/BvecSpec.v
theories/BvecProps.v
theories/TaskModel.v
theories/TaskProps.v
theories/SchedModel.v
theories/SchedSpec.v
theories/SchedProofs.v
theories/SchedOrder.v
theories/SchedProps.v
theories/SchedProps2.v
theories/SchedProps3.v
theories/SchedProps4.v
theories/TaskHistory.v
theories/SchedIsr.v
theories/SchedIsrProps.v
theories/LogModel.v
theories/LogProps.v
theories/JsonSpec.v
theories/JsonParse.v
theories/JemsModel.v
theories/JemsSpec.v
theories/JemsProofs.v
theories/JemsDouble.v
theories/JemsProofs2.v
theories/JemsProps.v
theories/JemsProps2.v
theories/JemsExact.v
theories/BisyncExact.v
theories/BbufExact2.v
theories/SchedProps5.v
theories/LogExact.v
theories/JemsExact2.v
theories/UnitTests.v
theories/UnitTests2.v
theories/UnitTests3.v
theories/SpscMore.v
theories/ArrayOracle.v
theories/BbufPred.v
theories/SystemModel.v
theories/SystemSpec.v
theories/SystemProofs.v
theories/SystemProps.v
theories/SchedProps6.v
theories/SchedReset.v
theories/SchedNested.v
theories/SystemProps2.v
theories/QueueIsr.v
theories/SystemIsr.v
theories/KitSpec.v
theories/Telemetry.v
theories/BbufCopyInto.v
theories/BisyncAliasModel.v
theories/BisyncAlias.v
theories/BbufHuge.v
theories/ArrayHuge.v
theories/LogIsr.v
theories/Sizes.v
theories/CLang.v
theories/CSym.v
theories/SrcQueue.v
theories/QueueSrc.v
theories/QueueSrcProps.v
theories/SrcSpsc.v
theories/SpscSrc.v
theories/CTree.v
theories/CTreeSym.v
theories/SpscThreads.v
theories/SpscSrcProps.v
theories/SrcArray.v
theories/ArraySrc.v
theories/ArraySrcProps.v
theories/SrcMqueue.v
theories/TaskSrc.v
theories/TaskSrcProps.v
theories/MqueueSrc.v
theories/MqueueSrcProps.v
theories/SrcBisync.v
theories/BisyncSrc.v
theories/BisyncSrcProps.v
theories/SrcSched.v
theories/SchedSrc.v
theories/SchedSrc2.v
theories/SchedSrc3.v
theories/SchedSrc4.v
theories/SchedSrc5.v
theories/SchedSrc6.v
theories/SchedSrcProps.v
theories/SrcJems.v
theories/JemsSrc.v
theories/JemsSrcProps.v
theories/SrcBvec.v
theories/BbufSrc.v
theories/BbufSrc2.v
theories/BbufSrc3.v
theories/BbufSrc4.v
theories/BbufSrc5.v
theories/BbufSrc6.v
theories/BbufSrc7.v
theories/BbufSrc8.v
theories/BbufSrc9.v
theories/BbufSrcProps.v
theories/SrcLog.v
theories/LogSrc.v
theories/LogSrcProps.v
theories/BvecSrcProps.v
theories/BbufSrcUB.v
theories/BbufSrcUB2.v
theories/BbufSrcUBProps.v
theories/QueueIsrSrc.v
theories/QueueIsrSrc2.v
