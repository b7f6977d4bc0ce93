-Q theories Verif
theories/Base.v
theories/Journal_Model.v
theories/Journal_Spec.v
theories/Journal_Proofs.v
theories/Journal_Proofs2.v
theories/Journal_Proofs3.v
theories/Persist_Model.v
theories/Persist_Spec.v
theories/Persist_Proofs.v
theories/Journal_Props.v
theories/Proto_Model.v
theories/Proto_Proofs.v
theories/Codec_Model.v
theories/Codec_Proofs.v
theories/Wire_Model.v
theories/Wire_Proofs.v
theories/ShardWire_Model.v
theories/ShardWire_Proofs.v
theories/Wire_Props.v
theories/Uuid_Props.v
theories/SysWire_Props.v
theories/Redis_Model.v
theories/Redis_Spec.v
theories/Redis_Proofs.v
theories/Redis_Proofs2.v
theories/Redis_Proofs3.v
theories/Redis_Props.v
theories/Actor_Model.v
theories/Actor_Spec.v
theories/Actor_Proofs.v
theories/Actor_Proofs2.v
theories/Actor_Proofs3.v
theories/Actor_Props.v
theories/Supervise_Model.v
theories/Supervise_Spec.v
theories/Supervise_Proofs.v
theories/Supervise_Props.v
theories/ActorSys_Model.v
theories/ActorSys_Spec.v
theories/ActorSys_Proofs.v
theories/ActorSys_Props.v
theories/Arrange.v
theories/Coord_Model.v
theories/Coord_Spec.v
theories/Coord_Proofs.v
theories/Coord_Props.v
theories/Host_Model.v
theories/Host_Spec.v
theories/Host_Proofs.v
theories/ShardSys_Model.v
theories/ShardSys_Spec.v
theories/ShardSys_Coord.v
theories/ShardSys_Host.v
theories/ShardSys_Inv.v
theories/ShardSys_Proofs.v
theories/ShardSys_Stop.v
theories/Host_Props.v
theories/ShardSys_Props.v
theories/Entity_Model.v
theories/Entity_Spec.v
theories/Entity_Proofs.v
theories/Entity_Props.v
theories/Singleton_Model.v
theories/Singleton_Spec.v
theories/Singleton_Manager.v
theories/Singleton_Sys.v
theories/Singleton_Proofs.v
theories/Singleton_Progress.v
theories/Singleton_Proxy.v
theories/Singleton_Props.v
theories/Singleton_Told.v
theories/Singleton_Everyone.v
theories/Told_Props.v
theories/Nodes_Model.v
theories/Nodes_Spec.v
theories/Nodes_Proofs.v
theories/Nodes_Props.v
theories/Heart_Model.v
theories/Heart_Spec.v
theories/Heart_Proofs.v
theories/Heart_Props.v
theories/Client_Model.v
theories/Client_Spec.v
theories/Client_Proofs.v
theories/Client_Props.v
theories/Rpc_Model.v
theories/Rpc_Spec.v
theories/Rpc_Proofs.v
theories/Rpc_Props.v
theories/Delivery_Model.v
theories/Delivery_Spec.v
theories/Delivery_Proofs.v
theories/Delivery_Props.v
theories/Session_Model.v
theories/Session_Spec.v
theories/Session_Proofs.v
theories/Session_Props.v
theories/Stream_Model.v
theories/Stream_Spec.v
theories/Stream_Proofs.v
theories/StreamNet_Proofs.v
theories/Stream_Props.v
theories/Discovery_Model.v
theories/Discovery_Spec.v
theories/Discovery_Proofs.v
theories/Discovery_Props.v
theories/Locate_Model.v
theories/Locate_Spec.v
theories/Locate_Proofs.v
theories/Locate_Props.v
theories/Deploy_Model.v
theories/Deploy_Spec.v
theories/Deploy_Proofs.v
theories/Deploy_Props.v
theories/Mesh_Model.v
theories/Mesh_Spec.v
theories/Mesh_Proofs.v
theories/Mesh_Props.v
theories/Shutdown_Model.v
theories/Shutdown_Spec.v
theories/Shutdown_Proofs.v
theories/Shutdown_Progress.v
theories/Shutdown_Props.v
theories/Sharded_Model.v
theories/Sharded_Spec.v
theories/Sharded_Proofs.v
theories/Sharded_Results.v
theories/Sharded_Progress.v
theories/Sharded_Props.v
theories/Stats_Model.v
theories/Stats_Spec.v
theories/Stats_Proofs.v
theories/Stats_Props.v
theories/Selector_Model.v
theories/Selector_Spec.v
theories/Selector_Proofs.v
theories/Selector_Props.v
theories/Config_Model.v
theories/Config_Spec.v
theories/Config_Proofs.v
theories/Config_Props.v
theories/Refs_Model.v
theories/Refs_Spec.v
theories/Refs_Proofs.v
theories/Refs_Props.v
theories/Durable_Model.v
theories/Durable_Spec.v
theories/Durable_Proofs.v
theories/Durable_Proofs2.v
theories/Durable_Proofs3.v
theories/Durable_Proofs4.v
theories/Durable_Proofs5.v
theories/Durable_Props.v
theories/Frame_Model.v
theories/Frame_Spec.v
theories/Frame_Proofs.v
theories/Frame_Props.v
theories/Chat_Model.v
theories/Chat_Spec.v
theories/Chat_Proofs.v
theories/Chat_Live.v
theories/Chat_Room.v
theories/Chat_Member.v
theories/Chat_Order.v
theories/Chat_Props.v
theories/Lead_Model.v
theories/Lead_Spec.v
theories/Lead_Proofs.v
theories/Lead_World.v
theories/Lead_Calm.v
theories/Lead_Elect.v
theories/Lead_Props.v
theories/Pool_Model.v
theories/Pool_Spec.v
theories/Pool_Proofs.v
theories/Pool_Props.v
theories/Join_Model.v
theories/Join_Spec.v
theories/Join_Proofs.v
theories/Join_Proofs2.v
theories/Join_Props.v
theories/Vault_Model.v
theories/Vault_Spec.v
theories/Vault_Proofs.v
theories/Vault_Proofs2.v
theories/Vault_Proofs3.v
theories/Vault_Proofs4.v
theories/Vault_Proofs5.v
theories/Vault_Props.v
theories/Twin_Model.v
theories/Twin_Spec.v
theories/Twin_Proofs.v
theories/Twin_Proofs2.v
theories/Twin_Proofs3.v
theories/Twin_Proofs4.v
theories/Twin_Props.v
theories/Json_Model.v
theories/Json_Spec.v
theories/Json_Proofs.v
theories/Json_Proofs2.v
theories/Json_Proofs3.v
theories/Json_Sound.v
theories/Json_Props.v
theories/Codec_Sound.v
theories/ChatWire_Model.v
theories/ChatWire_Spec.v
theories/ChatWire_Proofs.v
theories/ChatWire_Proofs2.v
theories/ChatWire_Props.v
theories/Handles_Model.v
theories/Handles_Spec.v
theories/Handles_Proofs.v
theories/Handles_Proofs2.v
theories/Handles_Proofs3.v
theories/Handles_Proofs4.v
theories/Handles_Proofs5.v
theories/Handles_Proofs6.v
theories/Handles_Props.v
theories/Upgrade_Model.v
theories/Upgrade_Spec.v
theories/Upgrade_Proofs.v
theories/Upgrade_Proofs2.v
theories/Upgrade_Props.v
theories/K8s_Model.v
theories/K8s_Spec.v
theories/K8s_Proofs.v
theories/K8s_Props.v
theories/Waits_Model.v
theories/Waits_Spec.v
theories/Waits_Proofs.v
theories/Waits_Proofs2.v
theories/Waits_Proofs3.v
theories/Waits_Exec.v
theories/Waits_Cycle.v
theories/Waits_Props.v
theories/Waits_System.v
theories/Waits_System_Proofs.v
theories/Waits_System_Play.v
theories/Waits_System_Props.v
theories/Views_Model.v
theories/Views_Spec.v
theories/Views_Proofs.v
theories/Views_Proofs2.v
theories/Views_Proofs3.v
theories/Views_Props.v
theories/Attach_Model.v
theories/Attach_Spec.v
theories/Attach_Proofs.v
theories/Attach_Proofs2.v
theories/Attach_Proofs3.v
theories/Attach_Props.v
theories/Blocking_Model.v
theories/Blocking_Spec.v
theories/Blocking_Proofs.v
theories/Blocking_Proofs2.v
theories/Blocking_Props.v
theories/Paths_Model.v
theories/Paths_Spec.v
theories/Paths_Proofs.v
theories/Paths_Props.v
theories/JsonText_Spec.v
theories/JsonText_Proofs.v
theories/JsonText_Proofs2.v
theories/JsonText_Sound.v
theories/JsonText_Props.v
theories/ClientAsk_Spec.v
theories/ClientAsk_Proofs.v
theories/ClientAsk_Props.v
theories/Text_Props.v
