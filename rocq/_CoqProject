-Q theories Verif
theories/Base.v
theories/BaseFacts.v
theories/ListFacts.v
theories/Name_Model.v
theories/Name_Spec.v
theories/Name_Proofs.v
theories/Name_Props.v
theories/Parser_Model.v
theories/Parser_Spec.v
theories/Parser_Proofs.v
theories/Parser_Props.v
theories/Gen_Model.v
theories/Gen_Spec.v
theories/Gen_Proofs.v
theories/Parser_Walk.v
theories/Compress_Spec.v
theories/Compress_Proofs.v
theories/Gen2_Proofs.v
theories/Gen_Props.v
theories/Bst_Model.v
theories/Bst_Spec.v
theories/Bst_Proofs.v
theories/Bst2_Proofs.v
theories/Bst_Props.v
theories/Hash_Model.v
theories/Mctx_Model.v
theories/Mctx_Spec.v
theories/Mctx_Proofs.v
theories/Mctx_Props.v
theories/List2Facts.v
theories/Sht_Model.v
theories/Sht_Proofs.v
theories/Chunk_Model.v
theories/Chunk_Spec.v
theories/Chunk_Proofs.v
theories/Chunk_Props.v
theories/Hosts_Model.v
theories/Hosts_Spec.v
theories/Hosts_Proofs.v
theories/Hosts_Props.v
theories/Cht_Model.v
theories/Cht_Proofs.v
theories/Cht_Inv.v
theories/Cache_Model.v
theories/Cache_Spec.v
theories/Cache_Proofs.v
theories/Cache2_Proofs.v
theories/Cache3_Proofs.v
theories/Cache4_Proofs.v
theories/Cache_Props.v
theories/Ttl_Model.v
theories/Ttl_Spec.v
theories/Ttl_Proofs.v
theories/Ttl_Props.v
theories/Alias_Spec.v
theories/Alias_Proofs.v
theories/Alias_Props.v
theories/Addr_Model.v
theories/Addr_Spec.v
theories/Addr_Proofs.v
theories/Addr2_Proofs.v
theories/Addr3_Proofs.v
theories/Addr_Props.v
theories/Ip_Model.v
theories/Ip_Spec.v
theories/Ip_Proofs.v
theories/Ip2_Proofs.v
theories/Ip3_Proofs.v
theories/Ip4_Proofs.v
theories/Ip5_Proofs.v
theories/Ip_Props.v
theories/Arr_Model.v
theories/Arr_Props.v
theories/Sbuf_Props.v
theories/Queue_Model.v
theories/Queue_Props.v
theories/Timed_Props.v
theories/Slist_Model.v
theories/Replace_Props.v
theories/Slist_Proofs.v
theories/Slist_Props.v
theories/Line_Model.v
theories/Line_Props.v
theories/Config_Model.v
theories/Config_Proofs.v
theories/Config_Props.v
theories/Filter_Model.v
theories/Filter_Props.v
theories/Mmgr_Model.v
theories/Mmgr_Props.v
theories/Stat_Model.v
theories/Stat_Props.v
theories/Tcp_Model.v
theories/Tcp_Props.v
theories/Reload_Model.v
theories/Reload_Props.v
theories/Iheader_Model.v
theories/Iheader_Spec.v
theories/Iheader_Proofs.v
theories/Iheader_Props.v
theories/Rdata_Model.v
theories/Rdata_Spec.v
theories/Rdata_Proofs.v
theories/Rdata2_Proofs.v
theories/Rdata3_Proofs.v
theories/Rdata_Props.v
theories/Fetch_Model.v
theories/Fetch_Spec.v
theories/Fetch_Proofs.v
theories/Fetch2_Proofs.v
theories/Fetch_Props.v
theories/Udpm_Model.v
theories/Udpm_Spec.v
theories/Udpm_Proofs.v
theories/Udpm2_Proofs.v
theories/Udpm_Props.v
theories/Hmsg_Model.v
theories/Hmsg_Spec.v
theories/Hmsg_Proofs.v
theories/Hmsg_Props.v
theories/Redir_Model.v
theories/Redir_Spec.v
theories/Redir_Proofs.v
theories/Redir2_Proofs.v
theories/Redir3_Proofs.v
theories/Redir_Props.v
theories/Cycle_Model.v
theories/Cycle_Props.v
theories/Sock_Model.v
theories/Sock_Spec.v
theories/Sock_Proofs.v
theories/Sock_Props.v
theories/Tfe_Model.v
theories/Tfe_Props.v
theories/Tcpm_Model.v
theories/Tcpm_Spec.v
theories/Tcpm_Proofs.v
theories/Tcpm2_Proofs.v
theories/Tcpm_Props.v
theories/Alist_Model.v
theories/Alist_Spec.v
theories/Alist_Proofs.v
theories/Alist_Props.v
theories/Good_Model.v
theories/Good_Spec.v
theories/Good_Props.v
theories/Cfile_Model.v
theories/Cfile_Spec.v
theories/Cfile_Proofs.v
theories/Cfile_Props.v
theories/Ipload_Model.v
theories/Ipload_Spec.v
theories/Ipload_Proofs.v
theories/Ipload_Props.v
theories/Log_Model.v
theories/Log_Spec.v
theories/Log_Proofs.v
theories/Log_Props.v
theories/Dl_Model.v
theories/Dl_Spec.v
theories/Dl_Proofs.v
theories/Dl_Props.v
theories/Main_Model.v
theories/Main_Spec.v
theories/Main_Proofs.v
theories/Main_Props.v
theories/Dyn_Model.v
theories/Dyn_Spec.v
theories/Dyn_Proofs.v
theories/Dyn_Props.v
theories/Retire_Model.v
theories/Retire_Spec.v
theories/Retire_Proofs.v
theories/Retire_Props.v
theories/Again_Spec.v
theories/Again_Proofs.v
theories/Again2_Proofs.v
theories/Again_Props.v
theories/Wtask_Model.v
theories/Wtask_Spec.v
theories/Wtask_Proofs.v
theories/Wtask_Props.v
theories/Serve_Model.v
theories/Serve_Spec.v
theories/Serve_Proofs.v
theories/Serve_Props.v
theories/Trip_Spec.v
theories/Trip_Proofs.v
theories/Trip_Props.v
theories/Loose_Spec.v
theories/Loose_Proofs.v
theories/Loose_Props.v
theories/Ttrip_Spec.v
theories/Ttrip_Proofs.v
theories/Ttrip_Props.v
theories/Fam_Model.v
theories/Fam_Props.v
theories/Grp_Model.v
theories/Grp_Props.v
theories/Tmem_Model.v
theories/Tmem_Props.v
theories/Shown_Spec.v
theories/Shown_Props.v
theories/Again2_Props.v
theories/Endless_Props.v
theories/Ns_Spec.v
theories/Ns_Proofs.v
theories/Ns_Props.v
theories/Kept_Spec.v
theories/Kept_Props.v
theories/Handover_Props.v
theories/Longval_Props.v
theories/Getter_Model.v
theories/Getter_Props.v
theories/Tfreply_Props.v
theories/Cutline_Props.v
