-Q theories Verif
theories/Base.v
theories/S_memory.v
theories/M_memory.v
theories/L_memory.v
theories/P_memory.v
theories/S_bits.v
theories/M_bits.v
theories/L_bits.v
theories/L_bitcodec.v
theories/L_bitprops.v
theories/P_bits.v
theories/S_incrzip.v
theories/M_dynamic.v
theories/M_incrzip.v
theories/M_incrstep.v
theories/L_ext.v
theories/L_incrzip.v
theories/L_incrzip1.v
theories/P_incrzip.v
theories/S_incrstep.v
theories/L_incrstep.v
theories/P_incrstep.v
theories/L_incrfit.v
theories/S_list.v
theories/M_list.v
theories/L_list.v
theories/P_list.v
theories/S_lists.v
theories/M_lists.v
theories/L_nodelist.v
theories/L_sortlist.v
theories/L_pint.v
theories/P_lists.v
theories/S_ws.v
theories/M_ws.v
theories/L_ws.v
theories/P_ws.v
theories/S_server.v
theories/M_server.v
theories/L_server.v
theories/P_server.v
theories/S_netq.v
theories/M_netq.v
theories/L_netq.v
theories/L_mems.v
theories/P_netq.v
theories/S_netmsg.v
theories/M_netmsg.v
theories/L_netmsg.v
theories/P_netmsg.v
theories/S_dict.v
theories/M_dict.v
theories/L_dict.v
theories/L_dictiter.v
theories/S_map.v
theories/M_map.v
theories/L_map.v
theories/P_dict.v
theories/P_map.v
theories/S_table.v
theories/M_table.v
theories/L_table.v
theories/L_convert.v
theories/P_table.v
theories/S_time.v
theories/M_time.v
theories/L_time.v
theories/P_time.v
theories/S_refs.v
theories/M_refs.v
theories/L_refs.v
theories/P_refs.v
theories/S_log.v
theories/M_log.v
theories/L_log.v
theories/P_log.v
theories/S_bcast.v
theories/M_bcast.v
theories/L_bcast.v
theories/P_bcast.v
theories/S_fastq.v
theories/M_fastq.v
theories/L_fastq.v
theories/P_fastq.v
theories/S_waitq.v
theories/M_waitq.v
theories/P_waitq.v
theories/S_fmap.v
theories/M_fmap.v
theories/L_fmap.v
theories/P_fmap.v
theories/P_fmapw.v
theories/P_fmaps.v
theories/S_fnon.v
theories/M_fnon.v
theories/P_fnon.v
theories/S_wait.v
theories/M_wait.v
theories/P_wait.v
theories/S_rwlock.v
theories/M_rwlock.v
theories/P_rwlock.v
theories/S_json.v
theories/M_json.v
theories/L_json.v
theories/L_jsonread.v
theories/L_jsonwrite.v
theories/P_json.v
theories/S_sub.v
theories/M_sub.v
theories/L_sub.v
theories/P_sub.v
theories/S_sendq.v
theories/M_sendq.v
theories/L_sendq.v
theories/P_sendq.v
theories/S_nettext.v
theories/M_nettext.v
theories/L_nettext.v
theories/P_nettext.v
theories/L_e2e.v
theories/P_e2e.v
theories/S_blocks.v
theories/M_blocks.v
theories/L_blocks.v
theories/L_blockscan.v
theories/P_blocks.v
theories/S_sha1.v
theories/M_sha1.v
theories/L_sha1.v
theories/P_sha1.v
theories/S_hand.v
theories/M_hand.v
theories/L_hand.v
theories/P_hand.v
theories/S_sdb.v
theories/M_sdb.v
theories/L_sdb.v
theories/P_sdb.v
theories/S_mapfile.v
theories/M_mapfile.v
theories/L_mapfile.v
theories/P_mapfile.v
theories/S_index.v
theories/M_index.v
theories/L_index.v
theories/P_index.v
theories/S_kdict.v
theories/M_kdict.v
theories/L_kdict.v
theories/P_kdict.v
theories/S_sno.v
theories/M_sno.v
theories/L_sno.v
theories/P_sno.v
theories/S_live.v
theories/M_live.v
theories/L_live.v
theories/P_live.v
theories/S_replay.v
theories/M_replay.v
theories/L_replay.v
theories/L_replayt.v
theories/P_replay.v
theories/S_csv.v
theories/M_csv.v
theories/L_csv.v
theories/P_csv.v
theories/S_merge.v
theories/M_merge.v
theories/L_merge.v
theories/P_merge.v
theories/S_tasks.v
theories/M_tasks.v
theories/L_tasks.v
theories/P_tasks.v
theories/S_sds.v
theories/M_sds.v
theories/L_sds.v
theories/P_sds.v
theories/S_tabdef.v
theories/M_tabdef.v
theories/L_tabdef.v
theories/P_tabdef.v
theories/S_rectext.v
theories/M_rectext.v
theories/L_rectext.v
theories/P_rectext.v
theories/S_frwdb.v
theories/M_frwdb.v
theories/L_frwdb.v
theories/P_frwdb.v
theories/S_conf.v
theories/M_conf.v
theories/L_conf.v
theories/L_conf2.v
theories/L_conf3.v
theories/P_conf.v
theories/S_query.v
theories/M_query.v
theories/L_query.v
theories/P_query.v
theories/S_client.v
theories/M_client.v
theories/L_client.v
theories/P_client.v
theories/S_subdb.v
theories/M_subdb.v
theories/L_subdb.v
theories/P_subdb.v
theories/S_memdb.v
theories/M_memdb.v
theories/P_memdb.v
theories/S_access.v
theories/M_access.v
theories/P_access.v
