-Q theories Verif
theories/Account_proofs.v
theories/Account_run.v
theories/Again_proofs.v
theories/Base.v
theories/Bash.v
theories/Bootstrap.v
theories/Bootstrap_proofs.v
theories/Client.v
theories/Codec.v
theories/Codec_proofs.v
theories/Codec_proofs2.v
theories/Commands_proofs.v
theories/Connect.v
theories/Content_proofs.v
theories/Control.v
theories/Control_isolation.v
theories/Control_proofs.v
theories/Control_settle.v
theories/Converge.v
theories/Coreutils.v
theories/Dict_proofs.v
theories/Digits.v
theories/Dir_proofs.v
theories/Direct.v
theories/Dispatcher.v
theories/Dry_files.v
theories/Dry_proofs.v
theories/Dry_system.v
theories/Files.v
theories/Files_examples.v
theories/Files_plain.v
theories/Fleet.v
theories/Footprint_proofs.v
theories/Frugal.v
theories/Git_prog.v
theories/Git_proofs.v
theories/Immediate.v
theories/Init.v
theories/Init_proofs.v
theories/Inspect.v
theories/Inspect_proofs.v
theories/Inventory.v
theories/Inventory_accept.v
theories/Inventory_examples.v
theories/Inventory_main.v
theories/Inventory_orders.v
theories/Inventory_proofs.v
theories/Inventory_proofs2.v
theories/Inventory_ties.v
theories/Inventory_values.v
theories/Inventory_vars.v
theories/Lifecycle.v
theories/Line_proofs.v
theories/Line_text.v
theories/Link_proofs.v
theories/Link_walk.v
theories/Logger.v
theories/Main.v
theories/Op.v
theories/Op_proofs.v
theories/Options.v
theories/Options_proofs.v
theories/Output.v
theories/Package_proofs.v
theories/Params.v
theories/Paths.v
theories/Prop_Account.v
theories/Prop_Again.v
theories/Prop_Bootstrap.v
theories/Prop_Codec.v
theories/Prop_Connect.v
theories/Prop_Content.v
theories/Prop_Control.v
theories/Prop_Detect.v
theories/Prop_Dry.v
theories/Prop_Files.v
theories/Prop_Fleet.v
theories/Prop_Footprint.v
theories/Prop_Git.v
theories/Prop_Immediate.v
theories/Prop_Init.v
theories/Prop_Inspect.v
theories/Prop_Interrupted.v
theories/Prop_Inventory.v
theories/Prop_Lifecycle.v
theories/Prop_Line.v
theories/Prop_Link.v
theories/Prop_Logger.v
theories/Prop_Main.v
theories/Prop_Mixed.v
theories/Prop_Op.v
theories/Prop_Options.v
theories/Prop_Output.v
theories/Prop_Package.v
theories/Prop_Params.v
theories/Prop_Query.v
theories/Prop_Ranks.v
theories/Prop_Reach.v
theories/Prop_Rehearse.v
theories/Prop_Remote.v
theories/Prop_Repeat.v
theories/Prop_Report.v
theories/Prop_Rerun.v
theories/Prop_Script.v
theories/Prop_Script_dry.v
theories/Prop_Service.v
theories/Prop_Session.v
theories/Prop_Settled.v
theories/Prop_Status.v
theories/Prop_Table.v
theories/Prop_Tasks.v
theories/Prop_Trace.v
theories/Prop_Tree.v
theories/Prop_Tree_again.v
theories/Prop_Tree_dry.v
theories/Prop_Tried.v
theories/Prop_Turns.v
theories/Prop_Urls.v
theories/Prop_Wrapper.v
theories/Query_proofs.v
theories/Quiet.v
theories/Ranks.v
theories/Ranks_proofs.v
theories/Readonly.v
theories/Remote_examples.v
theories/Remote_proofs.v
theories/Remote_run.v
theories/Remote_safe.v
theories/Remote_upload.v
theories/Rerun_proofs.v
theories/Script_dry.v
theories/Script_line.v
theories/Script_proofs.v
theories/Session_proofs.v
theories/Sh.v
theories/Shadow.v
theories/Shell_proofs.v
theories/Sound.v
theories/Spec_Account.v
theories/Spec_Again.v
theories/Spec_Bootstrap.v
theories/Spec_Codec.v
theories/Spec_Commands.v
theories/Spec_Connect.v
theories/Spec_Control.v
theories/Spec_Files.v
theories/Spec_Fleet.v
theories/Spec_Footprint.v
theories/Spec_Git.v
theories/Spec_Init.v
theories/Spec_Inspect.v
theories/Spec_Interrupted.v
theories/Spec_Inventory.v
theories/Spec_Line.v
theories/Spec_Link.v
theories/Spec_Op.v
theories/Spec_Options.v
theories/Spec_Ranks.v
theories/Spec_Remote.v
theories/Spec_Repeat.v
theories/Spec_Report.v
theories/Spec_Script.v
theories/Spec_Service.v
theories/Spec_Session.v
theories/Spec_Sys.v
theories/Spec_Table.v
theories/Spec_Tasks.v
theories/Spec_Terminal.v
theories/Spec_Trace.v
theories/Spec_Tree.v
theories/Spec_Wrapper.v
theories/Steps.v
theories/Sys.v
theories/Sys_proofs.v
theories/System.v
theories/Thrift.v
theories/Trace.v
theories/Transfer.v
theories/Tree_dry.v
theories/Tree_proofs.v
theories/Tree_run.v
theories/Turns.v
theories/Upward.v
theories/Urls.v
theories/Utf8.v
theories/Utf8_proofs.v
theories/Walk_proofs.v
theories/Wrapper.v
theories/Wrapper_proofs.v
