-Q theories Verif
theories/AofModel.v
theories/AofProofs1.v
theories/AofProofs2.v
theories/AofProofs3.v
theories/AofProofs4.v
theories/AofProofs5.v
theories/Base.v
theories/BlendProofs.v
theories/BootProofs.v
theories/CommandExt.v
theories/CommandFacts.v
theories/CommandFrame.v
theories/CommandInv.v
theories/CommandInv2.v
theories/CommandModel.v
theories/CommandProofs1.v
theories/CommandProofs2.v
theories/CommandProofs3.v
theories/CommandProofs4.v
theories/CommandSem.v
theories/CommandTop.v
theories/CrashLoop.v
theories/CrashProofs.v
theories/DatabaseModel.v
theories/DictModel.v
theories/DictProofs.v
theories/DictProofs2.v
theories/DictProofs3.v
theories/DictProofs4.v
theories/DictRun.v
theories/DictSpec.v
theories/EndProofs.v
theories/EventModel.v
theories/ExampleLib.v
theories/ExampleTools.v
theories/Float.v
theories/ListcmdProofs.v
theories/LoadModel.v
theories/LoadProofs.v
theories/LogProofs.v
theories/LoopModel.v
theories/LoopProofs.v
theories/PropsAof.v
theories/PropsCommand.v
theories/PropsConn.v
theories/PropsCrash.v
theories/PropsData.v
theories/PropsDict.v
theories/PropsDurable.v
theories/PropsEnd.v
theories/PropsEvent.v
theories/PropsExpire.v
theories/PropsListcmd.v
theories/PropsLives.v
theories/PropsLog.v
theories/PropsLoop.v
theories/PropsQuicklist.v
theories/PropsReply.v
theories/PropsResp.v
theories/PropsRewrite.v
theories/PropsSafe.v
theories/PropsSet.v
theories/PropsSkiplist.v
theories/PropsSpop.v
theories/PropsStart.v
theories/PropsTerm.v
theories/PropsUp.v
theories/PropsZcmd.v
theories/PropsZsafe.v
theories/PropsZset.v
theories/QuicklistModel.v
theories/QuicklistProofs.v
theories/RandomProofs.v
theories/ReplySpec.v
theories/RespModel.v
theories/RespProofs.v
theories/RespSpec.v
theories/RewriteProofs.v
theories/RndFrame.v
theories/SafeProofs.v
theories/ServerModel.v
theories/SetModel.v
theories/SetProofs.v
theories/SkiplistModel.v
theories/SkiplistProofs.v
theories/SkiplistProofs2.v
theories/SkiplistProofs3.v
theories/SkiplistProofs4.v
theories/SkiplistProofs5.v
theories/SolidCmd.v
theories/SolidProofs.v
theories/SolidRange.v
theories/StartModel.v
theories/Strconv.v
theories/SystemModel.v
theories/SystemProofs.v
theories/TermBoot.v
theories/TermCmd.v
theories/TermDraw.v
theories/TermMore.v
theories/TermProofs.v
theories/UpProofs.v
theories/ZcmdProofs.v
theories/ZsetModel.v
theories/ZsetProofs.v
