-Q theories Verif
theories/Base.v
theories/TrieM.v
theories/TrieA.v
theories/TrieP.v
theories/TrieP2.v
theories/TrieD.v
theories/WordStoreM.v
theories/Spec_Hist.v
theories/TrieH.v
theories/Spec_Walk.v
theories/TrieW.v
theories/WordStoreP.v
theories/Demo.v
theories/StoreX.v
theories/Thm_Store.v
theories/ErrorValuesM.v
theories/LevIndexM.v
theories/Spec_Edit.v
theories/Spec_EV.v
theories/EVP.v
theories/EVE.v
theories/EVK.v
theories/ScalarP.v
theories/Thm_EV.v
theories/EditP.v
theories/SearchP.v
theories/HitsP.v
theories/Spec_Lev.v
theories/EVR.v
theories/LevP.v
theories/LevX.v
theories/Thm_Lev.v
theories/WordM.v
theories/Spec_Word.v
theories/WordP.v
theories/WordQ.v
theories/SplitP.v
theories/WordX.v
theories/Thm_Word.v
theories/MapM.v
theories/DoubleM.v
theories/ContM.v
theories/MapP.v
theories/Spec_Cont.v
theories/ContP.v
theories/ContQ.v
theories/ContX.v
theories/Thm_Cont.v
theories/MatcherM.v
theories/Spec_Match.v
theories/FloatP.v
theories/MatchP.v
theories/MatchQ.v
theories/MatchR.v
theories/MatchS.v
theories/MatchT.v
theories/MatchU.v
theories/MatchV.v
theories/MatchW.v
theories/EnvP.v
theories/MatchY.v
theories/TypoP.v
theories/MatchZ.v
theories/MatchX.v
theories/Thm_Match.v
theories/FloatQ.v
theories/FloatR.v
theories/FloatS.v
theories/Spec_First.v
theories/FloatT.v
theories/Spec_Query.v
theories/QueryP.v
theories/QueryG.v
theories/QueryF.v
theories/MetricP.v
theories/QueryX.v
theories/Thm_Query.v
theories/FloatX.v
theories/Thm_Float.v
theories/DataFileM.v
theories/Spec_File.v
theories/DataP.v
theories/DataX.v
theories/Thm_File.v
theories/CApiM.v
theories/Spec_CApi.v
theories/CApiP.v
theories/CApiQ.v
theories/CApiR.v
theories/CApiS.v
theories/CApiX.v
theories/Thm_CApi.v
theories/OwnM.v
theories/Spec_Own.v
theories/OwnP.v
theories/OwnQ.v
theories/OwnR.v
theories/OwnS.v
theories/OwnX.v
theories/Thm_Own.v
theories/PyM.v
theories/Spec_Py.v
theories/PyP.v
theories/PyQ.v
theories/PyR.v
theories/PyS.v
theories/PyT.v
theories/PyU.v
theories/PyV.v
theories/PyW.v
theories/PyY.v
theories/PyX.v
theories/Thm_Py.v
theories/ResM.v
theories/ResP.v
theories/Spec_Res.v
theories/ResQ.v
theories/ResX.v
theories/Thm_Res.v
theories/Spec_Room.v
theories/MatchG.v
theories/RoomX.v
theories/Thm_Room.v
theories/QIndexM.v
theories/Spec_Tool.v
theories/QIndexP.v
theories/QIndexQ.v
theories/QIndexR.v
theories/QIndexS.v
theories/QIndexX.v
theories/Thm_Tool.v
theories/AppM.v
theories/Spec_App.v
theories/AppP.v
theories/AppQ.v
theories/AppR.v
theories/AppS.v
theories/AppT.v
theories/AppU.v
theories/AppV.v
theories/AppW.v
theories/AppY.v
theories/AppZ.v
theories/AppX.v
theories/Thm_App.v
theories/OomM.v
theories/Spec_Oom.v
theories/OomP.v
theories/OomQ.v
theories/OomR.v
theories/OomS.v
theories/OomT.v
theories/OomX.v
theories/Thm_Oom.v
theories/HoldM.v
theories/Spec_Hold.v
theories/HoldP.v
theories/HoldQ.v
theories/HoldR.v
theories/HoldS.v
theories/HoldT.v
theories/HoldU.v
theories/HoldX.v
theories/Thm_Hold.v
theories/FailM.v
theories/Spec_Fail.v
theories/FailP.v
theories/FailQ.v
theories/FailR.v
theories/FailS.v
theories/FailT.v
theories/FailU.v
theories/FailV.v
theories/FailX.v
theories/Thm_Fail.v
theories/EvOomM.v
theories/Spec_EvOom.v
theories/EvOomP.v
theories/EvOomQ.v
theories/EvOomX.v
theories/Thm_EvOom.v
theories/ParM.v
theories/Spec_Par.v
theories/ParP.v
theories/ParQ.v
theories/ParR.v
theories/ParX.v
theories/Thm_Par.v
theories/CMemM.v
theories/Spec_CMem.v
theories/CMemP.v
theories/CMemQ.v
theories/CMemR.v
theories/CMemX.v
theories/Thm_CMem.v
theories/CMatM.v
theories/Spec_CMat.v
theories/CMatP.v
theories/CMatQ.v
theories/CMatR.v
theories/CMatS.v
theories/CMatX.v
theories/Thm_CMat.v
theories/StOomM.v
theories/Spec_StOom.v
theories/StOomP.v
theories/StOomX.v
theories/Thm_StOom.v
theories/LvOomM.v
theories/Spec_LvOom.v
theories/LvOomP.v
theories/LvOomX.v
theories/Thm_LvOom.v
theories/SrOomM.v
theories/SrOomP.v
theories/SrOomX.v
theories/Thm_SrOom.v
theories/IwOomM.v
theories/Spec_IwOom.v
theories/IwOomP.v
theories/Thm_IwOom.v
theories/DaOomM.v
theories/DaOomP.v
theories/DaOomX.v
theories/Thm_DaOom.v
theories/FnOomM.v
theories/FnOomP.v
theories/FnOomX.v
theories/Thm_FnOom.v
theories/DfOomM.v
theories/Spec_DfOom.v
theories/DfOomP.v
theories/DfOomX.v
theories/Thm_DfOom.v
theories/TestX.v
