-Q theories Verif
theories/Str_Model.v
theories/Str_Spec.v
theories/Str_Proofs.v
theories/HashSlot_Model.v
theories/HashSlot_Spec.v
theories/HashSlot_Proofs.v
theories/HashSlot_Props.v
theories/ListX.v
theories/Util_Model.v
theories/Util_Spec.v
theories/Util_Proofs.v
theories/Codec_Model.v
theories/Codec_Proofs.v
theories/Reader_Model.v
theories/Reader_Proofs.v
theories/Util_Props.v
theories/Codec_Props.v
theories/Reader_Props.v
theories/Meta_Model.v
theories/Meta_Spec.v
theories/Meta_Proofs.v
theories/Meta_History.v
theories/Meta_Ids.v
theories/Meta_Log.v
theories/Meta_List.v
theories/Meta_Props.v
theories/Rs_Model.v
theories/Rs_Spec.v
theories/Rs_Proofs.v
theories/Rs_Main.v
theories/Rs_Props.v
theories/Copy_Model.v
theories/Copy_Proofs.v
theories/Copy_Props.v
theories/Upload_Model.v
theories/Upload_Spec.v
theories/Upload_Proofs.v
theories/Resume_Proofs.v
theories/Upload_Props.v
theories/Layout_Props.v
theories/Api_Model.v
theories/Api_Spec.v
theories/Api_Proofs.v
theories/Api_Props.v
theories/Retain_Model.v
theories/Retain_Proofs.v
theories/Retain_Props.v
theories/Path_Model.v
theories/Path_Spec.v
theories/Path_Proofs.v
theories/Path_Props.v
theories/Store_Model.v
theories/Store_Spec.v
theories/Store_Proofs.v
theories/Store_Props.v
theories/Migrate_Model.v
theories/Migrate_Spec.v
theories/Migrate_Proofs.v
theories/Migrate_Props.v
theories/Owner_Model.v
theories/Owner_Spec.v
theories/Owner_Proofs.v
theories/Owner_Props.v
theories/Status_Model.v
theories/Status_Spec.v
theories/Status_Proofs.v
theories/Status_Props.v
theories/Move_Model.v
theories/Move_Spec.v
theories/Move_Proofs.v
theories/Move_Props.v
theories/Cache_Model.v
theories/Cache_Spec.v
theories/Cache_Proofs.v
theories/Cache_Props.v
theories/Storage_Model.v
theories/Storage_Spec.v
theories/Storage_Proofs.v
theories/Storage_Props.v
theories/Admit_Model.v
theories/Admit_Spec.v
theories/Admit_Proofs.v
theories/Admit_Props.v
theories/Client_Model.v
theories/Client_Spec.v
theories/Client_Proofs.v
theories/Client_Props.v
theories/Rpc_Model.v
theories/Rpc_Spec.v
theories/Rpc_Proofs.v
theories/Rpc_Props.v
theories/Auth_Model.v
theories/Auth_Spec.v
theories/Auth_Proofs.v
theories/Auth_Props.v
theories/Drive_Model.v
theories/Drive_Spec.v
theories/Drive_Proofs.v
theories/Drive_Props.v
theories/Piece_Model.v
theories/Piece_Spec.v
theories/Piece_Proofs.v
theories/Piece_Props.v
theories/Admin_Model.v
theories/Admin_Spec.v
theories/Admin_Proofs.v
theories/Admin_Props.v
theories/Registry_Model.v
theories/Registry_Spec.v
theories/Registry_Proofs.v
theories/Registry_Props.v
theories/Bind_Model.v
theories/Bind_Spec.v
theories/Bind_Proofs.v
theories/Bind_Props.v
theories/BindAuth_Model.v
theories/BindAuth_Props.v
theories/Perf_Model.v
theories/Perf_Spec.v
theories/Perf_Proofs.v
theories/Perf_Props.v
theories/Comp_Model.v
theories/Comp_Spec.v
theories/Comp_Proofs.v
theories/Comp_Props.v
theories/Panic_Model.v
theories/Panic_Spec.v
theories/Panic_Proofs.v
theories/Panic_Props.v
theories/Race_Model.v
theories/Race_Spec.v
theories/Race_Proofs.v
theories/Race_Props.v
theories/Mon_Model.v
theories/Mon_Spec.v
theories/Mon_Proofs.v
theories/Mon_Props.v
theories/Url_Model.v
theories/Url_Spec.v
theories/Url_Proofs.v
theories/Url_Props.v
theories/Break_Model.v
theories/Break_Spec.v
theories/Break_Proofs.v
theories/Break_Props.v
theories/Console_Model.v
theories/Console_Spec.v
theories/Console_Proofs.v
theories/Console_Props.v
theories/Group_Model.v
theories/Group_Spec.v
theories/Group_Proofs.v
theories/Group_Props.v
theories/Stop_Model.v
theories/Stop_Spec.v
theories/Stop_Proofs.v
theories/Stop_Props.v
theories/Borrow_Model.v
theories/Borrow_Spec.v
theories/Borrow_Proofs.v
theories/Borrow_Props.v
theories/Conf_Model.v
theories/Conf_Spec.v
theories/Conf_Proofs.v
theories/Conf_Props.v
theories/Route_Model.v
theories/Route_Spec.v
theories/Route_Proofs.v
theories/Route_Props.v
theories/Cmd_Model.v
theories/Cmd_Spec.v
theories/Cmd_Props.v
theories/Dir_Model.v
theories/Dir_Spec.v
theories/Dir_Proofs.v
theories/Dir_Props.v
theories/Sel_Model.v
theories/Sel_Spec.v
theories/Sel_Proofs.v
theories/Sel_Props.v
theories/Rest_Model.v
theories/Rest_Spec.v
theories/Rest_Proofs.v
theories/Rest_Props.v
theories/Token_Model.v
theories/Token_Spec.v
theories/Token_Proofs.v
theories/Token_Props.v
theories/Pack_Model.v
theories/Pack_Spec.v
theories/Pack_Proofs.v
theories/Pack_Props.v
theories/Snap_Model.v
theories/Snap_Spec.v
theories/Snap_Proofs.v
theories/Snap_Props.v
theories/Net_Model.v
theories/Net_Spec.v
theories/Net_Proofs.v
theories/Net_Props.v
theories/Twin_Model.v
theories/Twin_Spec.v
theories/Twin_Proofs.v
theories/Twin_Props.v
theories/Web_Model.v
theories/Web_Spec.v
theories/Web_Proofs.v
theories/Web_Props.v
theories/Possess_Spec.v
theories/Possess_Proofs.v
theories/Possess_Props.v
theories/Seek_Model.v
theories/Seek_Spec.v
theories/Seek_Proofs.v
theories/Seek_Props.v
theories/Search_Model.v
theories/Search_Spec.v
theories/Search_Proofs.v
theories/Search_Props.v
theories/Churn_Model.v
theories/Churn_Spec.v
theories/Churn_Proofs.v
theories/Churn_Props.v
theories/Tandem_Model.v
theories/Tandem_Spec.v
theories/Tandem_Proofs.v
theories/Tandem_Props.v
theories/Alias_Model.v
theories/Alias_Spec.v
theories/Alias_Proofs.v
theories/Alias_Props.v
theories/Hold_Model.v
theories/Hold_Spec.v
theories/Hold_Proofs.v
theories/Hold_Props.v
theories/Notice_Model.v
theories/Notice_Spec.v
theories/Notice_Proofs.v
theories/Notice_Props.v
theories/Setup_Model.v
theories/Setup_Spec.v
theories/Setup_Proofs.v
theories/Setup_Props.v
theories/Share_Model.v
theories/Share_Spec.v
theories/Share_Proofs.v
theories/Share_Props.v
theories/Estate_Model.v
theories/Estate_Spec.v
theories/Estate_Proofs.v
theories/Estate_Props.v
