-Q theories Verif
theories/Base.v
theories/BaseLemmas.v
theories/Arith_Model.v
theories/Arith_Proofs.v
theories/Time_Model.v
theories/Time_Proofs.v
theories/Props_Time.v
theories/Sched_Model.v
theories/Sched_Spec.v
theories/Sched_Proofs.v
theories/Props_Sched.v
theories/Puts.v
theories/Wire_Model.v
theories/Wire_Spec.v
theories/Wire_Proofs.v
theories/Props_Wire.v
theories/Control_Model.v
theories/Control_Spec.v
theories/Control_Proofs.v
theories/Control_State.v
theories/Stop_Model.v
theories/Control_Integrity.v
theories/Setup_Model.v
theories/Server_Model.v
theories/Server_Spec.v
theories/Server_State.v
theories/Control_Fixed.v
theories/Setup_Spec.v
theories/Setup_Select.v
theories/Setup_Proofs.v
theories/Server_Proofs.v
theories/Toy.v
theories/Props_Control.v
theories/Boundary_Proofs.v
theories/Props_Setup.v
theories/File_Model.v
theories/File_Spec.v
theories/File_Proofs.v
theories/File_Updates.v
theories/Props_File.v
theories/Packet_Model.v
theories/Packet_Proofs.v
theories/Sender_Model.v
theories/Sender_Spec.v
theories/Sender_Proofs.v
theories/Props_Sender.v
theories/Receiver_Model.v
theories/Receiver_Spec.v
theories/Receiver_Proofs.v
theories/Receiver_Run.v
theories/Receiver_Live.v
theories/Props_Receiver.v
theories/Double.v
theories/Double_Proofs.v
theories/Port_Model.v
theories/Port_Spec.v
theories/Port_Proofs.v
theories/Props_Port.v
theories/Policy_Model.v
theories/Policy_Spec.v
theories/Policy_Proofs.v
theories/Policy_Class.v
theories/Policy_Net.v
theories/Props_Policy.v
theories/Limits_Model.v
theories/Limits_Spec.v
theories/Limits_Proofs.v
theories/Props_Limits.v
theories/Stop_Spec.v
theories/Stop_Proofs.v
theories/Stop_Sound.v
theories/Stop_Exchange.v
theories/Props_Stop.v
theories/Clean_Model.v
theories/Clean_Spec.v
theories/Clean_Proofs.v
theories/Clean_Search.v
theories/Clean_Result.v
theories/Clean_Broken.v
theories/Props_Clean.v
theories/Fetch_Model.v
theories/Fetch_Spec.v
theories/Fetch_Proofs.v
theories/Fetch_Result.v
theories/Fetch_Exchange.v
theories/Fetch_Whole.v
theories/Fetch_Integrity.v
theories/Props_Fetch.v
theories/Stats_Model.v
theories/Stats_Spec.v
theories/Stats_Proofs.v
theories/Stats_Iter.v
theories/Stats_Parse.v
theories/Stats_Report.v
theories/Receiver_Chronicle.v
theories/Props_Stats.v
theories/Reflector_Model.v
theories/Reflector_Spec.v
theories/Reflector_Proofs.v
theories/Props_Reflector.v
theories/Twoway_Model.v
theories/Twoway_Spec.v
theories/Twoway_Proofs.v
theories/Twoway_Inv.v
theories/Twoway_Run.v
theories/Twoway_Run2.v
theories/Twoway_End.v
theories/Twoway_Accept.v
theories/Props_Twoway.v
theories/Size_Model.v
theories/Size_Spec.v
theories/Size_Proofs.v
theories/Props_Size.v
theories/Lifecycle_Model.v
theories/Lifecycle_Spec.v
theories/Lifecycle_Proofs.v
theories/Lifecycle_World.v
theories/Lifecycle_Books.v
theories/Props_Lifecycle.v
theories/Aes_Tables.v
theories/Aes_Model.v
theories/Aes_Spec.v
theories/Aes_Proofs.v
theories/Keys_Model.v
theories/Props_Aes.v
theories/StatsTW_Model.v
theories/StatsTW_Spec.v
theories/StatsTW_Proofs.v
theories/StatsTW_Inv.v
theories/StatsTW_Iter.v
theories/StatsTW_Parse.v
theories/Props_StatsTW.v
theories/Pow_Model.v
theories/Pow_Spec.v
theories/Pow_Proofs.v
theories/Pow_Names.v
theories/Pow_Example.v
theories/Props_Pow.v
theories/Wait_Model.v
theories/Wait_Spec.v
theories/Wait_Proofs.v
theories/Props_Wait.v
theories/Options_Model.v
theories/Options_Spec.v
theories/Options_Proofs.v
theories/Props_Options.v
theories/Config_Model.v
theories/Config_Spec.v
theories/Config_Proofs.v
theories/Props_Config.v
theories/Daemon_Model.v
theories/Daemon_Spec.v
theories/Daemon_Proofs.v
theories/Props_Daemon.v
theories/Priv_Model.v
theories/Priv_Spec.v
theories/Priv_Proofs.v
theories/Props_Priv.v
theories/Conn_Model.v
theories/Conn_Spec.v
theories/Conn_Proofs.v
theories/Props_Conn.v
theories/Single.v
theories/Single_Proofs.v
theories/Report_Model.v
theories/Report_Spec.v
theories/Report_Proofs.v
theories/Props_Report.v
theories/Datadir_Model.v
theories/Datadir_Spec.v
theories/Datadir_Proofs.v
theories/Props_Datadir.v
theories/Ping_Model.v
theories/Ping_Spec.v
theories/Ping_Proofs.v
theories/Props_Ping.v
theories/Connect_Model.v
theories/Props_Connect.v
theories/Start_Model.v
theories/Props_Start.v
theories/Request_Model.v
theories/Props_Request.v
theories/Nodes_Model.v
theories/Props_Nodes.v
theories/Fork_Model.v
theories/Props_Fork.v
theories/Endpoint_Model.v
theories/Props_Endpoint.v
theories/Daemonopt_Model.v
theories/Props_Daemonopt.v
theories/Machine_Model.v
theories/Props_Machine.v
theories/Objects_Model.v
theories/Props_Objects.v
theories/Misc_Model.v
theories/Props_Misc.v
theories/Dostats_Model.v
theories/Props_Dostats.v
theories/Bucket_Model.v
theories/Props_Bucket.v
theories/Openfile_Model.v
theories/Props_Openfile.v
theories/Props_Asked.v
theories/Props_Refusal.v
