-Q theories Verif

theories/PyStr.v
theories/PyDec.v
theories/PyVal.v
theories/Schema.v
theories/KvnPre.v
theories/KvnTree.v
theories/KvnSeg.v
theories/XmlBind.v
theories/KvnBuild.v
theories/NdmXml.v
theories/KvnWrite.v
theories/NdmIo.v
theories/Spec.v
theories/SpecIo.v
theories/SpecKvn.v
theories/SpecObj.v
theories/StrFacts.v
theories/IoFacts.v
theories/XmlFacts.v
theories/DecFacts.v
theories/SpecNum.v
theories/NumFacts.v
theories/PropNum.v
theories/KeptFacts.v
theories/PreFacts.v
theories/SegFacts.v
theories/BuildFacts.v
theories/WriteFacts.v
theories/ParseFacts.v
theories/ShiftFacts.v
theories/ReadFacts.v
theories/ComposeFacts.v
theories/MsgFacts.v
theories/Demo.v
theories/PropIo.v
theories/PropLex.v
theories/PropSeg.v
theories/PropWrite.v
theories/CoreFacts.v
theories/UserFacts.v
theories/SpecMsg.v
theories/DataFacts.v
theories/SingleFacts.v
theories/ListFacts.v
theories/CheckFacts.v
theories/PropRound.v
theories/RelFacts.v
theories/SegListFacts.v
theories/PropCdm.v
theories/PropKept.v
theories/PropFind.v
theories/GapFacts.v
theories/SpecDoc.v
theories/SpecEph.v
theories/SpecTdm.v
theories/SpecAem.v
theories/SpecApm.v
theories/EphText.v
theories/EphFacts.v
theories/OemFacts.v
theories/TdmFacts.v
theories/AemTree.v
theories/AemState.v
theories/AemFacts.v
theories/ApmFacts.v
theories/CheckEph.v
theories/DocFacts.v
theories/PropOem.v
theories/PropOemDoc.v
theories/SayFacts.v
theories/PropText.v
theories/PropTdm.v
theories/PropAem.v
theories/PropApm.v
theories/PropDoc.v
theories/PropApmDoc.v
theories/Samples.v
theories/SamplesCheck.v
theories/PropStable.v
theories/PropVers.v
theories/SpecFrom.v
theories/PropFrom.v
theories/OrderFacts.v
theories/SpecOrder.v
theories/PropOrder.v
theories/SpecRepeat.v
theories/PropRepeat.v
theories/SpecSpell.v
theories/AlikeFacts.v
theories/PropSpell.v
theories/SpecSave.v
theories/PropSave.v
theories/SpecPlace.v
theories/PlaceFacts.v
theories/PropPlace.v
theories/SpecInsert.v
theories/SpecComment.v
theories/SpecField.v
theories/InsertFacts.v
theories/CommentFacts.v
theories/PropInsert.v
theories/PropComment.v
theories/PropField.v
theories/SpecChars.v
theories/SpecLines.v
theories/PropLines.v
theories/PropChars.v
theories/SpecErr.v
theories/ErrFacts.v
theories/RejectFacts.v
theories/PropErr.v
theories/TotalFacts.v
theories/PropTotal.v
theories/PropRemove.v
theories/SpecBack.v
theories/BackFacts.v
theories/BackRead.v
theories/BackErrs.v
theories/PropBack.v
theories/SpecSchema.v
theories/ConformFacts.v
theories/PropSchema.v
theories/CheckSchema.v
theories/SpecAgain.v
theories/AgainFacts.v
theories/AgainWrite.v
theories/CheckAgain.v
theories/PropAgain.v
theories/SpecFix.v
theories/PropFix.v
theories/SpecCross.v
theories/PropCross.v
theories/SpecSend.v
theories/SendFacts.v
theories/SendAem.v
theories/PropSend.v
