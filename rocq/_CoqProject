-Q theories Verif
theories/Base.v
theories/Bmp_Model.v
theories/Bmp_Spec.v
theories/Bmp_Proofs.v
theories/Bmp_Properties.v
theories/Base64_Model.v
theories/Base64_Spec.v
theories/Base64_Proofs.v
theories/Base64_Properties.v
theories/Hash_Model.v
theories/Hash_Spec.v
theories/Hash_Proofs.v
theories/Hash_Properties.v
theories/Bptree_Model.v
theories/Bptree_Arr.v
theories/Bptree_Proofs.v
theories/Bptree_Ins.v
theories/Bptree_Del.v
theories/Bptree_Spec.v
theories/Bptree_Api.v
theories/Bptree_Sim.v
theories/Bptree_Run.v
theories/Bptree_Iter.v
theories/Bptree_Final.v
theories/Bptree_Properties.v
theories/Buf_Model.v
theories/Buf_Spec.v
theories/Buf_Proofs.v
theories/Buf_IO.v
theories/Buf_Vec.v
theories/Buf_Properties.v
theories/Kvs_Model.v
theories/Kvs_Spec.v
theories/Kvs_Proofs.v
theories/Kvs_Trans.v
theories/Kvs_Commit.v
theories/Kvs_Rollback.v
theories/Kvs_Backend.v
theories/Kvs_All.v
theories/Kvs_Properties.v
theories/KvsValue_Model.v
theories/KvsValue_Spec.v
theories/KvsValue_Proofs.v
theories/KvsValue_Properties.v
theories/Tok_Model.v
theories/Tok_Spec.v
theories/Tok_Proofs.v
theories/Tok_Properties.v
theories/UtilStr_Model.v
theories/UtilStr_Spec.v
theories/UtilStr_Proofs.v
theories/UtilStr_Proofs2.v
theories/UtilStr_Properties.v
theories/BaseUtil_Model.v
theories/BaseUtil_Spec.v
theories/BaseUtil_Proofs.v
theories/BaseUtil_Properties.v
theories/UbrKey_Model.v
theories/UbrKey_Spec.v
theories/UbrKey_Proofs.v
theories/UbrKey_Properties.v
theories/UbrDb_Model.v
theories/UbrPerm_Spec.v
theories/UbrPerm_Proofs.v
theories/UbrPerm_Properties.v
theories/UbrDelta_Model.v
theories/UbrDelta_Spec.v
theories/UbrDelta_Proofs.v
theories/UbrDelta_Properties.v
theories/UbrRec_Model.v
theories/UbrRec_Spec.v
theories/UbrRec_Proofs.v
theories/UbrRec_Properties.v
theories/UbrSync_Model.v
theories/UbrSync_Spec.v
theories/UbrSync_Proofs.v
theories/UbrSyncWork_Proofs.v
theories/UbrSync_Properties.v
theories/UbrScan_Model.v
theories/UbrScan_Spec.v
theories/UbrScan_Proofs.v
theories/UbrScan_Properties.v
theories/UbrCmd_Model.v
theories/UbrCmd_Spec.v
theories/UbrCmd_Proofs.v
theories/UbrCmd_Properties.v
theories/UbrMsg_Model.v
theories/UbrMsg_Spec.v
theories/UbrMsg_Proofs.v
theories/UbrMsg_Properties.v
theories/UbrGen_Model.v
theories/UbrGen_Spec.v
theories/UbrGen_Proofs.v
theories/UbrGen_Properties.v
theories/UbrStack_Model.v
theories/UbrStack_Spec.v
theories/UbrStack_Proofs.v
theories/UbrStack_Properties.v
theories/UbrUdev_Spec.v
theories/UbrUdev_Proofs.v
theories/UbrUdev_Properties.v
theories/Ifc_Model.v
theories/Ifc_Spec.v
theories/Ifc_Proofs.v
theories/Ifc_Properties.v
theories/List_Model.v
theories/List_Spec.v
theories/List_Proofs.v
theories/List_Properties.v
theories/SrvLnk_Model.v
theories/SrvLnk_Spec.v
theories/SrvLnk_Proofs.v
theories/SrvLnk_Proofs2.v
theories/SrvLnk_Proofs3.v
theories/SrvLnk_Properties.v
theories/Fmt_Model.v
theories/Json_Spec.v
theories/Fmt_Spec.v
theories/Fmt_Proofs.v
theories/Fmt_Proofs2.v
theories/Fmt_Properties.v
theories/Doc_Model.v
theories/Doc_Spec.v
theories/Doc_Proofs.v
theories/Doc_Proofs2.v
theories/Doc_Proofs3.v
theories/Doc_Proofs4.v
theories/Doc_Proofs5.v
theories/Doc_Properties.v
theories/Res_Model.v
theories/Res_Spec.v
theories/Res_Proofs.v
theories/Res_Proofs2.v
theories/Res_Proofs3.v
theories/Res_Proofs4.v
theories/Res_Proofs5.v
theories/Res_Proofs6.v
theories/Res_Proofs7.v
theories/Res_Search.v
theories/Res_Proofs8.v
theories/Res_Properties.v
theories/ResEv_Model.v
theories/ResEv_Spec.v
theories/ResEv_Proofs.v
theories/ResEv_Properties.v
theories/Wrk_Model.v
theories/Wrk_Spec.v
theories/Wrk_Proofs.v
theories/Wrk_Proofs2.v
theories/Wrk_Proofs3.v
theories/Wrk_Proofs4.v
theories/Wrk_Ids.v
theories/Wrk_Properties.v
theories/WrkLife_Model.v
theories/WrkLife_Spec.v
theories/WrkLife_Proofs.v
theories/WrkLife_Properties.v
theories/ModName_Model.v
theories/ModName_Spec.v
theories/ModName_Proofs.v
theories/ModName_Properties.v
theories/ModReg_Model.v
theories/ModReg_Spec.v
theories/ModReg_Proofs.v
theories/ModReg_Properties.v
theories/ModTree_Model.v
theories/ModTree_Spec.v
theories/ModTree_Proofs.v
theories/ModTree_Properties.v
theories/UbrExec_Model.v
theories/UbrExec_Spec.v
theories/UbrExec_Proofs.v
theories/UbrExec_Properties.v
theories/UbrDevId_Model.v
theories/UbrDevId_Spec.v
theories/UbrDevId_Proofs.v
theories/UbrDevId_Properties.v
theories/Lvm_Model.v
theories/Lvm_Spec.v
theories/Lvm_Proofs.v
theories/Lvm_Properties.v
theories/Dm_Model.v
theories/Dm_Spec.v
theories/Dm_Proofs.v
theories/Dm_Properties.v
theories/WrkFd_Model.v
theories/WrkFd_Spec.v
theories/WrkFd_Proofs.v
theories/WrkFd_Properties.v
theories/KvsIter_Model.v
theories/KvsIter_Spec.v
theories/KvsIter_Proofs.v
theories/KvsIter_Size.v
theories/KvsIter_Properties.v
theories/UbrRoute_Model.v
theories/UbrRoute_Spec.v
theories/UbrRoute_Proofs.v
theories/UbrRoute_Proofs2.v
theories/UbrRoute_Proofs3.v
theories/UbrRoute_Proofs4.v
theories/UbrRoute_Proofs5.v
theories/UbrRoute_Last.v
theories/UbrRoute_Properties.v
theories/Usid_Model.v
theories/Usid_Spec.v
theories/Usid_Proofs.v
theories/Usid_Properties.v
theories/Blkid_Model.v
theories/Blkid_Spec.v
theories/Blkid_Steps.v
theories/Blkid_Proofs.v
theories/Blkid_Properties.v
theories/Mpath_Model.v
theories/Mpath_Spec.v
theories/Mpath_Proofs.v
theories/Mpath_Properties.v
theories/DmProps_Model.v
theories/DmProps_Spec.v
theories/DmProps_Proofs.v
theories/DmProps_Properties.v
theories/Sidctl_Model.v
theories/Sidctl_Spec.v
theories/Sidctl_Proofs.v
theories/Sidctl_Properties.v
theories/ResEvNew_Model.v
theories/ResEvNew_Spec.v
theories/ResEvNew_Proofs.v
theories/ResEvNew_Properties.v
theories/UbrMain_Model.v
theories/UbrMain_Spec.v
theories/UbrMain_Proofs.v
theories/UbrMain_Properties.v
theories/UbrImport_Model.v
theories/UbrImport_Spec.v
theories/UbrImport_Proofs.v
theories/UbrImport_Properties.v
theories/Log_Model.v
theories/Log_Spec.v
theories/Log_Proofs.v
theories/Log_Properties.v
theories/CmdMem_Model.v
theories/CmdMem_Spec.v
theories/CmdMem_Proofs.v
theories/CmdMem_Properties.v
theories/CmnMem_Model.v
theories/CmnMem_Spec.v
theories/CmnMem_Proofs.v
theories/CmnMem_Properties.v
theories/Comms_Model.v
theories/Comms_Spec.v
theories/Comms_Proofs.v
theories/Comms_Properties.v
theories/Daemon_Model.v
theories/Daemon_Spec.v
theories/Daemon_Proofs.v
theories/Daemon_Properties.v
theories/WrkSig_Model.v
theories/WrkSig_Spec.v
theories/WrkSig_Proofs.v
theories/WrkSig_Properties.v
theories/RunProg_Model.v
theories/RunProg_Spec.v
theories/RunProg_Proofs.v
theories/RunProg_Properties.v
theories/DmCookie_Model.v
theories/DmCookie_Spec.v
theories/DmCookie_Proofs.v
theories/DmCookie_Properties.v
theories/FdPass_Model.v
theories/FdPass_Spec.v
theories/FdPass_Proofs.v
theories/FdPass_Properties.v
