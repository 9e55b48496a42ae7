-Q theories Verif
theories/Base.v
theories/Ticket_Model.v
theories/FailManager_Model.v
theories/FailManager_Spec.v
theories/FailManager_Proofs.v
theories/FailManager_Props.v
theories/BanManager_Model.v
theories/BanManager_Spec.v
theories/BanManager_Proofs.v
theories/BanManager_Props.v
theories/Actions_Model.v
theories/Actions_Spec.v
theories/Actions_Proofs.v
theories/Actions_Proofs2.v
theories/Actions_Props.v
theories/Observer_Model.v
theories/Observer_Spec.v
theories/Observer_Proofs.v
theories/Observer_Props.v
theories/Utils_Model.v
theories/Utils_Spec.v
theories/Utils_Proofs.v
theories/Utils_Props.v
theories/Database_Model.v
theories/Database_Spec.v
theories/Database_Proofs.v
theories/Database_Props.v
theories/Text.v
theories/Regex.v
theories/IPAddr_Model.v
theories/IPAddr_Spec.v
theories/IPAddr_Proofs.v
theories/IPAddr_Proofs2.v
theories/IPAddr_Props.v
theories/Proto_Model.v
theories/Proto_Spec.v
theories/Proto_Proofs.v
theories/Proto_Props.v
theories/MyTime_Model.v
theories/MyTime_Spec.v
theories/MyTime_Proofs.v
theories/MyTime_Props.v
theories/Tags_Model.v
theories/Tags_Spec.v
theories/Tags_Proofs.v
theories/Tags_Proofs2.v
theories/Tags_Proofs3.v
theories/Tags_Proofs4.v
theories/Tags_Props.v
theories/CmdAct_Model.v
theories/CmdAct_Spec.v
theories/CmdAct_Proofs.v
theories/CmdAct_Proofs2.v
theories/CmdAct_Proofs3.v
theories/CmdAct_Proofs4.v
theories/CmdAct_Props.v
theories/LogFile_Model.v
theories/LogFile_Spec.v
theories/LogFile_Proofs.v
theories/LogFile_Proofs2.v
theories/LogFile_Proofs3.v
theories/LogFile_Props.v
theories/LogSeek_Model.v
theories/LogSeek_Spec.v
theories/LogSeek_Proofs.v
theories/LogSeek_Proofs2.v
theories/LogSeek_Props.v
theories/Ignore_Model.v
theories/Ignore_Spec.v
theories/Ignore_Proofs.v
theories/Ignore_Props.v
theories/Lines_Model.v
theories/Lines_Spec.v
theories/Lines_Proofs.v
theories/Lines_Props.v
theories/Session_Model.v
theories/Session_Spec.v
theories/Session_Proofs.v
theories/Session_Proofs2.v
theories/Session_Props.v
theories/Filter_Model.v
theories/Filter_Count.v
theories/Filter_Spec.v
theories/Filter_Proofs.v
theories/Filter_Proofs2.v
theories/Filter_Proofs3.v
theories/Filter_Props.v
theories/Server_Model.v
theories/Server_Spec.v
theories/Server_Proofs.v
theories/Server_Proofs2.v
theories/Server_Proofs3.v
theories/Server_Proofs4.v
theories/Server_Proofs5.v
theories/Server_Proofs6.v
theories/Server_Props.v
theories/Settings_Props.v
theories/Strptime_Model.v
theories/Strptime_Spec.v
theories/Strptime_Proofs.v
theories/Strptime_Proofs2.v
theories/Strptime_Proofs3.v
theories/Strptime_Proofs4.v
theories/Strptime_Proofs5.v
theories/Strptime_Props.v
theories/DateDetector_Model.v
theories/DateDetector_Spec.v
theories/DateDetector_Proofs.v
theories/DateDetector_Proofs2.v
theories/DateDetector_Proofs3.v
theories/DateDetector_Proofs4.v
theories/DateDetector_Proofs5.v
theories/DateDetector_Proofs6.v
theories/DateDetector_Props.v
theories/Poll_Model.v
theories/Poll_Spec.v
theories/Poll_Proofs.v
theories/Poll_Proofs2.v
theories/Poll_Props.v
theories/Config_Model.v
theories/Config_Spec.v
theories/Config_Proofs.v
theories/Config_Proofs2.v
theories/Config_Proofs3.v
theories/Config_Props.v
theories/Jail_Model.v
theories/Jail_Spec.v
theories/Jail_Proofs.v
theories/Jail_Proofs2.v
theories/Jail_Props.v
theories/Persist_Model.v
theories/Persist_Spec.v
theories/Persist_Proofs.v
theories/Persist_Proofs2.v
theories/Persist_Check.v
theories/Persist_Props.v
theories/Backtrack.v
theories/Options_Model.v
theories/Options_Spec.v
theories/Options_Proofs.v
theories/Options_Proofs2.v
theories/Options_Proofs3.v
theories/Options_Props.v
theories/Stream_Model.v
theories/Stream_Spec.v
theories/Stream_Proofs.v
theories/Stream_Proofs2.v
theories/Stream_Proofs3.v
theories/Stream_Proofs4.v
theories/Stream_Proofs5.v
theories/Stream_Proofs6.v
theories/Stream_Proofs7.v
theories/Stream_Proofs8.v
theories/Stream_Props.v
theories/Inotify_Model.v
theories/Inotify_Spec.v
theories/Inotify_Proofs.v
theories/Inotify_Proofs2.v
theories/Inotify_Proofs3.v
theories/Inotify_Proofs4.v
theories/Inotify_Proofs5.v
theories/Inotify_Proofs6.v
theories/Inotify_Proofs7.v
theories/Inotify_Proofs8.v
theories/Inotify_Proofs9.v
theories/Inotify_Props.v
theories/FailRegex_Model.v
theories/FailRegex_Spec.v
theories/FailRegex_Proofs.v
theories/FailRegex_Proofs2.v
theories/FailRegex_Proofs3.v
theories/FailRegex_Props.v
theories/Exec_Model.v
theories/Exec_Spec.v
theories/Exec_Proofs.v
theories/Exec_Proofs2.v
theories/Exec_Proofs3.v
theories/Exec_Props.v
theories/Journal_Model.v
theories/Journal_Spec.v
theories/Journal_Proofs.v
theories/Journal_Proofs2.v
theories/Journal_Proofs3.v
theories/Journal_Proofs4.v
theories/Journal_Props.v
theories/Setup_Model.v
theories/Setup_Spec.v
theories/Setup_Proofs.v
theories/Setup_Proofs2.v
theories/Setup_Proofs3.v
theories/Setup_Proofs4.v
theories/Setup_Proofs5.v
theories/Setup_Proofs6.v
theories/Setup_Proofs7.v
theories/Setup_Props.v
theories/Dns_Model.v
theories/Dns_Spec.v
theories/Dns_Proofs.v
theories/Dns_Proofs2.v
theories/Dns_Proofs3.v
theories/Dns_Proofs4.v
theories/Dns_Props.v
theories/DbOpen_Model.v
theories/DbOpen_Spec.v
theories/DbOpen_Proofs.v
theories/DbOpen_Props.v
theories/Info_Model.v
theories/Info_Spec.v
theories/Info_Proofs.v
theories/Info_Props.v
theories/Interp_Model.v
theories/Interp_Spec.v
theories/Interp_Proofs.v
theories/Interp_Proofs2.v
theories/Interp_Proofs3.v
theories/Interp_Props.v
theories/Wake_Model.v
theories/Wake_Spec.v
theories/Wake_Proofs.v
theories/Wake_Props.v
theories/Life_Model.v
theories/Life_Spec.v
theories/Life_Proofs.v
theories/Life_Proofs2.v
theories/Life_Props.v
theories/Template_Model.v
theories/Template_Spec.v
theories/Template_Spec2.v
theories/Template_Proofs.v
theories/Template_Proofs2.v
theories/Template_Proofs3.v
theories/Template_Proofs4.v
theories/Template_Proofs5.v
theories/Template_Proofs6.v
theories/Template_Proofs7.v
theories/Template_Proofs8.v
theories/Template_Props.v
theories/Tool_Model.v
theories/Tool_Spec.v
theories/Tool_Proofs.v
theories/Tool_Proofs2.v
theories/Tool_Props.v
theories/Logs_Model.v
theories/Logs_Spec.v
theories/Logs_Proofs.v
theories/Logs_Props.v
theories/Cmdline_Model.v
theories/Cmdline_Spec.v
theories/Cmdline_Proofs.v
theories/Cmdline_Props.v
theories/Show_Model.v
theories/Show_Spec.v
theories/Show_Props.v
