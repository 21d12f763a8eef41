(** Variations of the sample configurations (functional updates of one field,
    generated, no content); used in concrete cases only. *)
From Coq Require Import NArith List Bool.
From Verif Require Import Base Config.
Open Scope N_scope.

Definition w_motorola (v : bool) (c : cfg) : cfg :=
  mkCfg (c_max_cto c) (c_max_dto c) (c_len_size c) (c_ctr_size c) (c_max_dlc c) v (c_gran c) (c_sbm c) (c_mbm c) (c_max_bs c) (c_min_st c) (c_queue_size c) (c_max_bs_pgm c) (c_min_st_pgm c) (c_max_sector c) (c_pgm_props c) (c_cal c) (c_daq c) (c_pgm c) (c_opt c) (c_prot_cal c) (c_prot_daq c) (c_prot_stim c) (c_prot_pgm c) (c_chkmem c) (c_mapper c) (c_idhook c) (c_id0 c) (c_id1 c) (c_max_ent c) (c_events c) (c_ts c) (c_ts_size c) (c_prescaler c) (c_clock_always c) (c_reset_seq c) (c_queue_slots c) (c_cks c) (c_chunked c) (c_chunk c) (c_max_blk c) (c_stats c) (c_ev_api c) (c_srv_api c) (c_lock c) (c_ptr_bits c) (c_host_be c) (c_buf_addr c) (c_can_id c) (c_daq_ids c).
Definition w_sbm (v : bool) (c : cfg) : cfg :=
  mkCfg (c_max_cto c) (c_max_dto c) (c_len_size c) (c_ctr_size c) (c_max_dlc c) (c_motorola c) (c_gran c) v (c_mbm c) (c_max_bs c) (c_min_st c) (c_queue_size c) (c_max_bs_pgm c) (c_min_st_pgm c) (c_max_sector c) (c_pgm_props c) (c_cal c) (c_daq c) (c_pgm c) (c_opt c) (c_prot_cal c) (c_prot_daq c) (c_prot_stim c) (c_prot_pgm c) (c_chkmem c) (c_mapper c) (c_idhook c) (c_id0 c) (c_id1 c) (c_max_ent c) (c_events c) (c_ts c) (c_ts_size c) (c_prescaler c) (c_clock_always c) (c_reset_seq c) (c_queue_slots c) (c_cks c) (c_chunked c) (c_chunk c) (c_max_blk c) (c_stats c) (c_ev_api c) (c_srv_api c) (c_lock c) (c_ptr_bits c) (c_host_be c) (c_buf_addr c) (c_can_id c) (c_daq_ids c).
Definition w_mbm (v : bool) (c : cfg) : cfg :=
  mkCfg (c_max_cto c) (c_max_dto c) (c_len_size c) (c_ctr_size c) (c_max_dlc c) (c_motorola c) (c_gran c) (c_sbm c) v (c_max_bs c) (c_min_st c) (c_queue_size c) (c_max_bs_pgm c) (c_min_st_pgm c) (c_max_sector c) (c_pgm_props c) (c_cal c) (c_daq c) (c_pgm c) (c_opt c) (c_prot_cal c) (c_prot_daq c) (c_prot_stim c) (c_prot_pgm c) (c_chkmem c) (c_mapper c) (c_idhook c) (c_id0 c) (c_id1 c) (c_max_ent c) (c_events c) (c_ts c) (c_ts_size c) (c_prescaler c) (c_clock_always c) (c_reset_seq c) (c_queue_slots c) (c_cks c) (c_chunked c) (c_chunk c) (c_max_blk c) (c_stats c) (c_ev_api c) (c_srv_api c) (c_lock c) (c_ptr_bits c) (c_host_be c) (c_buf_addr c) (c_can_id c) (c_daq_ids c).
Definition w_max_dlc (v : bool) (c : cfg) : cfg :=
  mkCfg (c_max_cto c) (c_max_dto c) (c_len_size c) (c_ctr_size c) v (c_motorola c) (c_gran c) (c_sbm c) (c_mbm c) (c_max_bs c) (c_min_st c) (c_queue_size c) (c_max_bs_pgm c) (c_min_st_pgm c) (c_max_sector c) (c_pgm_props c) (c_cal c) (c_daq c) (c_pgm c) (c_opt c) (c_prot_cal c) (c_prot_daq c) (c_prot_stim c) (c_prot_pgm c) (c_chkmem c) (c_mapper c) (c_idhook c) (c_id0 c) (c_id1 c) (c_max_ent c) (c_events c) (c_ts c) (c_ts_size c) (c_prescaler c) (c_clock_always c) (c_reset_seq c) (c_queue_slots c) (c_cks c) (c_chunked c) (c_chunk c) (c_max_blk c) (c_stats c) (c_ev_api c) (c_srv_api c) (c_lock c) (c_ptr_bits c) (c_host_be c) (c_buf_addr c) (c_can_id c) (c_daq_ids c).
Definition w_lock (v : lockkind) (c : cfg) : cfg :=
  mkCfg (c_max_cto c) (c_max_dto c) (c_len_size c) (c_ctr_size c) (c_max_dlc c) (c_motorola c) (c_gran c) (c_sbm c) (c_mbm c) (c_max_bs c) (c_min_st c) (c_queue_size c) (c_max_bs_pgm c) (c_min_st_pgm c) (c_max_sector c) (c_pgm_props c) (c_cal c) (c_daq c) (c_pgm c) (c_opt c) (c_prot_cal c) (c_prot_daq c) (c_prot_stim c) (c_prot_pgm c) (c_chkmem c) (c_mapper c) (c_idhook c) (c_id0 c) (c_id1 c) (c_max_ent c) (c_events c) (c_ts c) (c_ts_size c) (c_prescaler c) (c_clock_always c) (c_reset_seq c) (c_queue_slots c) (c_cks c) (c_chunked c) (c_chunk c) (c_max_blk c) (c_stats c) (c_ev_api c) (c_srv_api c) v (c_ptr_bits c) (c_host_be c) (c_buf_addr c) (c_can_id c) (c_daq_ids c).
Definition w_ptr_bits (v : N) (c : cfg) : cfg :=
  mkCfg (c_max_cto c) (c_max_dto c) (c_len_size c) (c_ctr_size c) (c_max_dlc c) (c_motorola c) (c_gran c) (c_sbm c) (c_mbm c) (c_max_bs c) (c_min_st c) (c_queue_size c) (c_max_bs_pgm c) (c_min_st_pgm c) (c_max_sector c) (c_pgm_props c) (c_cal c) (c_daq c) (c_pgm c) (c_opt c) (c_prot_cal c) (c_prot_daq c) (c_prot_stim c) (c_prot_pgm c) (c_chkmem c) (c_mapper c) (c_idhook c) (c_id0 c) (c_id1 c) (c_max_ent c) (c_events c) (c_ts c) (c_ts_size c) (c_prescaler c) (c_clock_always c) (c_reset_seq c) (c_queue_slots c) (c_cks c) (c_chunked c) (c_chunk c) (c_max_blk c) (c_stats c) (c_ev_api c) (c_srv_api c) (c_lock c) v (c_host_be c) (c_buf_addr c) (c_can_id c) (c_daq_ids c).
Definition w_host_be (v : bool) (c : cfg) : cfg :=
  mkCfg (c_max_cto c) (c_max_dto c) (c_len_size c) (c_ctr_size c) (c_max_dlc c) (c_motorola c) (c_gran c) (c_sbm c) (c_mbm c) (c_max_bs c) (c_min_st c) (c_queue_size c) (c_max_bs_pgm c) (c_min_st_pgm c) (c_max_sector c) (c_pgm_props c) (c_cal c) (c_daq c) (c_pgm c) (c_opt c) (c_prot_cal c) (c_prot_daq c) (c_prot_stim c) (c_prot_pgm c) (c_chkmem c) (c_mapper c) (c_idhook c) (c_id0 c) (c_id1 c) (c_max_ent c) (c_events c) (c_ts c) (c_ts_size c) (c_prescaler c) (c_clock_always c) (c_reset_seq c) (c_queue_slots c) (c_cks c) (c_chunked c) (c_chunk c) (c_max_blk c) (c_stats c) (c_ev_api c) (c_srv_api c) (c_lock c) (c_ptr_bits c) v (c_buf_addr c) (c_can_id c) (c_daq_ids c).
Definition w_chkmem (v : bool) (c : cfg) : cfg :=
  mkCfg (c_max_cto c) (c_max_dto c) (c_len_size c) (c_ctr_size c) (c_max_dlc c) (c_motorola c) (c_gran c) (c_sbm c) (c_mbm c) (c_max_bs c) (c_min_st c) (c_queue_size c) (c_max_bs_pgm c) (c_min_st_pgm c) (c_max_sector c) (c_pgm_props c) (c_cal c) (c_daq c) (c_pgm c) (c_opt c) (c_prot_cal c) (c_prot_daq c) (c_prot_stim c) (c_prot_pgm c) v (c_mapper c) (c_idhook c) (c_id0 c) (c_id1 c) (c_max_ent c) (c_events c) (c_ts c) (c_ts_size c) (c_prescaler c) (c_clock_always c) (c_reset_seq c) (c_queue_slots c) (c_cks c) (c_chunked c) (c_chunk c) (c_max_blk c) (c_stats c) (c_ev_api c) (c_srv_api c) (c_lock c) (c_ptr_bits c) (c_host_be c) (c_buf_addr c) (c_can_id c) (c_daq_ids c).
Definition w_mapper (v : bool) (c : cfg) : cfg :=
  mkCfg (c_max_cto c) (c_max_dto c) (c_len_size c) (c_ctr_size c) (c_max_dlc c) (c_motorola c) (c_gran c) (c_sbm c) (c_mbm c) (c_max_bs c) (c_min_st c) (c_queue_size c) (c_max_bs_pgm c) (c_min_st_pgm c) (c_max_sector c) (c_pgm_props c) (c_cal c) (c_daq c) (c_pgm c) (c_opt c) (c_prot_cal c) (c_prot_daq c) (c_prot_stim c) (c_prot_pgm c) (c_chkmem c) v (c_idhook c) (c_id0 c) (c_id1 c) (c_max_ent c) (c_events c) (c_ts c) (c_ts_size c) (c_prescaler c) (c_clock_always c) (c_reset_seq c) (c_queue_slots c) (c_cks c) (c_chunked c) (c_chunk c) (c_max_blk c) (c_stats c) (c_ev_api c) (c_srv_api c) (c_lock c) (c_ptr_bits c) (c_host_be c) (c_buf_addr c) (c_can_id c) (c_daq_ids c).
Definition w_cks (v : cksum) (c : cfg) : cfg :=
  mkCfg (c_max_cto c) (c_max_dto c) (c_len_size c) (c_ctr_size c) (c_max_dlc c) (c_motorola c) (c_gran c) (c_sbm c) (c_mbm c) (c_max_bs c) (c_min_st c) (c_queue_size c) (c_max_bs_pgm c) (c_min_st_pgm c) (c_max_sector c) (c_pgm_props c) (c_cal c) (c_daq c) (c_pgm c) (c_opt c) (c_prot_cal c) (c_prot_daq c) (c_prot_stim c) (c_prot_pgm c) (c_chkmem c) (c_mapper c) (c_idhook c) (c_id0 c) (c_id1 c) (c_max_ent c) (c_events c) (c_ts c) (c_ts_size c) (c_prescaler c) (c_clock_always c) (c_reset_seq c) (c_queue_slots c) v (c_chunked c) (c_chunk c) (c_max_blk c) (c_stats c) (c_ev_api c) (c_srv_api c) (c_lock c) (c_ptr_bits c) (c_host_be c) (c_buf_addr c) (c_can_id c) (c_daq_ids c).
Definition w_chunked (v : bool) (c : cfg) : cfg :=
  mkCfg (c_max_cto c) (c_max_dto c) (c_len_size c) (c_ctr_size c) (c_max_dlc c) (c_motorola c) (c_gran c) (c_sbm c) (c_mbm c) (c_max_bs c) (c_min_st c) (c_queue_size c) (c_max_bs_pgm c) (c_min_st_pgm c) (c_max_sector c) (c_pgm_props c) (c_cal c) (c_daq c) (c_pgm c) (c_opt c) (c_prot_cal c) (c_prot_daq c) (c_prot_stim c) (c_prot_pgm c) (c_chkmem c) (c_mapper c) (c_idhook c) (c_id0 c) (c_id1 c) (c_max_ent c) (c_events c) (c_ts c) (c_ts_size c) (c_prescaler c) (c_clock_always c) (c_reset_seq c) (c_queue_slots c) (c_cks c) v (c_chunk c) (c_max_blk c) (c_stats c) (c_ev_api c) (c_srv_api c) (c_lock c) (c_ptr_bits c) (c_host_be c) (c_buf_addr c) (c_can_id c) (c_daq_ids c).
Definition w_chunk (v : N) (c : cfg) : cfg :=
  mkCfg (c_max_cto c) (c_max_dto c) (c_len_size c) (c_ctr_size c) (c_max_dlc c) (c_motorola c) (c_gran c) (c_sbm c) (c_mbm c) (c_max_bs c) (c_min_st c) (c_queue_size c) (c_max_bs_pgm c) (c_min_st_pgm c) (c_max_sector c) (c_pgm_props c) (c_cal c) (c_daq c) (c_pgm c) (c_opt c) (c_prot_cal c) (c_prot_daq c) (c_prot_stim c) (c_prot_pgm c) (c_chkmem c) (c_mapper c) (c_idhook c) (c_id0 c) (c_id1 c) (c_max_ent c) (c_events c) (c_ts c) (c_ts_size c) (c_prescaler c) (c_clock_always c) (c_reset_seq c) (c_queue_slots c) (c_cks c) (c_chunked c) v (c_max_blk c) (c_stats c) (c_ev_api c) (c_srv_api c) (c_lock c) (c_ptr_bits c) (c_host_be c) (c_buf_addr c) (c_can_id c) (c_daq_ids c).
Definition w_max_blk (v : N) (c : cfg) : cfg :=
  mkCfg (c_max_cto c) (c_max_dto c) (c_len_size c) (c_ctr_size c) (c_max_dlc c) (c_motorola c) (c_gran c) (c_sbm c) (c_mbm c) (c_max_bs c) (c_min_st c) (c_queue_size c) (c_max_bs_pgm c) (c_min_st_pgm c) (c_max_sector c) (c_pgm_props c) (c_cal c) (c_daq c) (c_pgm c) (c_opt c) (c_prot_cal c) (c_prot_daq c) (c_prot_stim c) (c_prot_pgm c) (c_chkmem c) (c_mapper c) (c_idhook c) (c_id0 c) (c_id1 c) (c_max_ent c) (c_events c) (c_ts c) (c_ts_size c) (c_prescaler c) (c_clock_always c) (c_reset_seq c) (c_queue_slots c) (c_cks c) (c_chunked c) (c_chunk c) v (c_stats c) (c_ev_api c) (c_srv_api c) (c_lock c) (c_ptr_bits c) (c_host_be c) (c_buf_addr c) (c_can_id c) (c_daq_ids c).
Definition w_ts (v : bool) (c : cfg) : cfg :=
  mkCfg (c_max_cto c) (c_max_dto c) (c_len_size c) (c_ctr_size c) (c_max_dlc c) (c_motorola c) (c_gran c) (c_sbm c) (c_mbm c) (c_max_bs c) (c_min_st c) (c_queue_size c) (c_max_bs_pgm c) (c_min_st_pgm c) (c_max_sector c) (c_pgm_props c) (c_cal c) (c_daq c) (c_pgm c) (c_opt c) (c_prot_cal c) (c_prot_daq c) (c_prot_stim c) (c_prot_pgm c) (c_chkmem c) (c_mapper c) (c_idhook c) (c_id0 c) (c_id1 c) (c_max_ent c) (c_events c) v (c_ts_size c) (c_prescaler c) (c_clock_always c) (c_reset_seq c) (c_queue_slots c) (c_cks c) (c_chunked c) (c_chunk c) (c_max_blk c) (c_stats c) (c_ev_api c) (c_srv_api c) (c_lock c) (c_ptr_bits c) (c_host_be c) (c_buf_addr c) (c_can_id c) (c_daq_ids c).
Definition w_ts_size (v : N) (c : cfg) : cfg :=
  mkCfg (c_max_cto c) (c_max_dto c) (c_len_size c) (c_ctr_size c) (c_max_dlc c) (c_motorola c) (c_gran c) (c_sbm c) (c_mbm c) (c_max_bs c) (c_min_st c) (c_queue_size c) (c_max_bs_pgm c) (c_min_st_pgm c) (c_max_sector c) (c_pgm_props c) (c_cal c) (c_daq c) (c_pgm c) (c_opt c) (c_prot_cal c) (c_prot_daq c) (c_prot_stim c) (c_prot_pgm c) (c_chkmem c) (c_mapper c) (c_idhook c) (c_id0 c) (c_id1 c) (c_max_ent c) (c_events c) (c_ts c) v (c_prescaler c) (c_clock_always c) (c_reset_seq c) (c_queue_slots c) (c_cks c) (c_chunked c) (c_chunk c) (c_max_blk c) (c_stats c) (c_ev_api c) (c_srv_api c) (c_lock c) (c_ptr_bits c) (c_host_be c) (c_buf_addr c) (c_can_id c) (c_daq_ids c).
Definition w_max_cto (v : N) (c : cfg) : cfg :=
  mkCfg v (c_max_dto c) (c_len_size c) (c_ctr_size c) (c_max_dlc c) (c_motorola c) (c_gran c) (c_sbm c) (c_mbm c) (c_max_bs c) (c_min_st c) (c_queue_size c) (c_max_bs_pgm c) (c_min_st_pgm c) (c_max_sector c) (c_pgm_props c) (c_cal c) (c_daq c) (c_pgm c) (c_opt c) (c_prot_cal c) (c_prot_daq c) (c_prot_stim c) (c_prot_pgm c) (c_chkmem c) (c_mapper c) (c_idhook c) (c_id0 c) (c_id1 c) (c_max_ent c) (c_events c) (c_ts c) (c_ts_size c) (c_prescaler c) (c_clock_always c) (c_reset_seq c) (c_queue_slots c) (c_cks c) (c_chunked c) (c_chunk c) (c_max_blk c) (c_stats c) (c_ev_api c) (c_srv_api c) (c_lock c) (c_ptr_bits c) (c_host_be c) (c_buf_addr c) (c_can_id c) (c_daq_ids c).
Definition w_max_dto (v : N) (c : cfg) : cfg :=
  mkCfg (c_max_cto c) v (c_len_size c) (c_ctr_size c) (c_max_dlc c) (c_motorola c) (c_gran c) (c_sbm c) (c_mbm c) (c_max_bs c) (c_min_st c) (c_queue_size c) (c_max_bs_pgm c) (c_min_st_pgm c) (c_max_sector c) (c_pgm_props c) (c_cal c) (c_daq c) (c_pgm c) (c_opt c) (c_prot_cal c) (c_prot_daq c) (c_prot_stim c) (c_prot_pgm c) (c_chkmem c) (c_mapper c) (c_idhook c) (c_id0 c) (c_id1 c) (c_max_ent c) (c_events c) (c_ts c) (c_ts_size c) (c_prescaler c) (c_clock_always c) (c_reset_seq c) (c_queue_slots c) (c_cks c) (c_chunked c) (c_chunk c) (c_max_blk c) (c_stats c) (c_ev_api c) (c_srv_api c) (c_lock c) (c_ptr_bits c) (c_host_be c) (c_buf_addr c) (c_can_id c) (c_daq_ids c).
Definition w_len_size (v : N) (c : cfg) : cfg :=
  mkCfg (c_max_cto c) (c_max_dto c) v (c_ctr_size c) (c_max_dlc c) (c_motorola c) (c_gran c) (c_sbm c) (c_mbm c) (c_max_bs c) (c_min_st c) (c_queue_size c) (c_max_bs_pgm c) (c_min_st_pgm c) (c_max_sector c) (c_pgm_props c) (c_cal c) (c_daq c) (c_pgm c) (c_opt c) (c_prot_cal c) (c_prot_daq c) (c_prot_stim c) (c_prot_pgm c) (c_chkmem c) (c_mapper c) (c_idhook c) (c_id0 c) (c_id1 c) (c_max_ent c) (c_events c) (c_ts c) (c_ts_size c) (c_prescaler c) (c_clock_always c) (c_reset_seq c) (c_queue_slots c) (c_cks c) (c_chunked c) (c_chunk c) (c_max_blk c) (c_stats c) (c_ev_api c) (c_srv_api c) (c_lock c) (c_ptr_bits c) (c_host_be c) (c_buf_addr c) (c_can_id c) (c_daq_ids c).
Definition w_ctr_size (v : N) (c : cfg) : cfg :=
  mkCfg (c_max_cto c) (c_max_dto c) (c_len_size c) v (c_max_dlc c) (c_motorola c) (c_gran c) (c_sbm c) (c_mbm c) (c_max_bs c) (c_min_st c) (c_queue_size c) (c_max_bs_pgm c) (c_min_st_pgm c) (c_max_sector c) (c_pgm_props c) (c_cal c) (c_daq c) (c_pgm c) (c_opt c) (c_prot_cal c) (c_prot_daq c) (c_prot_stim c) (c_prot_pgm c) (c_chkmem c) (c_mapper c) (c_idhook c) (c_id0 c) (c_id1 c) (c_max_ent c) (c_events c) (c_ts c) (c_ts_size c) (c_prescaler c) (c_clock_always c) (c_reset_seq c) (c_queue_slots c) (c_cks c) (c_chunked c) (c_chunk c) (c_max_blk c) (c_stats c) (c_ev_api c) (c_srv_api c) (c_lock c) (c_ptr_bits c) (c_host_be c) (c_buf_addr c) (c_can_id c) (c_daq_ids c).
Definition w_events (v : list event) (c : cfg) : cfg :=
  mkCfg (c_max_cto c) (c_max_dto c) (c_len_size c) (c_ctr_size c) (c_max_dlc c) (c_motorola c) (c_gran c) (c_sbm c) (c_mbm c) (c_max_bs c) (c_min_st c) (c_queue_size c) (c_max_bs_pgm c) (c_min_st_pgm c) (c_max_sector c) (c_pgm_props c) (c_cal c) (c_daq c) (c_pgm c) (c_opt c) (c_prot_cal c) (c_prot_daq c) (c_prot_stim c) (c_prot_pgm c) (c_chkmem c) (c_mapper c) (c_idhook c) (c_id0 c) (c_id1 c) (c_max_ent c) v (c_ts c) (c_ts_size c) (c_prescaler c) (c_clock_always c) (c_reset_seq c) (c_queue_slots c) (c_cks c) (c_chunked c) (c_chunk c) (c_max_blk c) (c_stats c) (c_ev_api c) (c_srv_api c) (c_lock c) (c_ptr_bits c) (c_host_be c) (c_buf_addr c) (c_can_id c) (c_daq_ids c).
Definition w_max_ent (v : N) (c : cfg) : cfg :=
  mkCfg (c_max_cto c) (c_max_dto c) (c_len_size c) (c_ctr_size c) (c_max_dlc c) (c_motorola c) (c_gran c) (c_sbm c) (c_mbm c) (c_max_bs c) (c_min_st c) (c_queue_size c) (c_max_bs_pgm c) (c_min_st_pgm c) (c_max_sector c) (c_pgm_props c) (c_cal c) (c_daq c) (c_pgm c) (c_opt c) (c_prot_cal c) (c_prot_daq c) (c_prot_stim c) (c_prot_pgm c) (c_chkmem c) (c_mapper c) (c_idhook c) (c_id0 c) (c_id1 c) v (c_events c) (c_ts c) (c_ts_size c) (c_prescaler c) (c_clock_always c) (c_reset_seq c) (c_queue_slots c) (c_cks c) (c_chunked c) (c_chunk c) (c_max_blk c) (c_stats c) (c_ev_api c) (c_srv_api c) (c_lock c) (c_ptr_bits c) (c_host_be c) (c_buf_addr c) (c_can_id c) (c_daq_ids c).
Definition w_reset_seq (v : bool) (c : cfg) : cfg :=
  mkCfg (c_max_cto c) (c_max_dto c) (c_len_size c) (c_ctr_size c) (c_max_dlc c) (c_motorola c) (c_gran c) (c_sbm c) (c_mbm c) (c_max_bs c) (c_min_st c) (c_queue_size c) (c_max_bs_pgm c) (c_min_st_pgm c) (c_max_sector c) (c_pgm_props c) (c_cal c) (c_daq c) (c_pgm c) (c_opt c) (c_prot_cal c) (c_prot_daq c) (c_prot_stim c) (c_prot_pgm c) (c_chkmem c) (c_mapper c) (c_idhook c) (c_id0 c) (c_id1 c) (c_max_ent c) (c_events c) (c_ts c) (c_ts_size c) (c_prescaler c) (c_clock_always c) v (c_queue_slots c) (c_cks c) (c_chunked c) (c_chunk c) (c_max_blk c) (c_stats c) (c_ev_api c) (c_srv_api c) (c_lock c) (c_ptr_bits c) (c_host_be c) (c_buf_addr c) (c_can_id c) (c_daq_ids c).
Definition w_opt (v : N -> bool) (c : cfg) : cfg :=
  mkCfg (c_max_cto c) (c_max_dto c) (c_len_size c) (c_ctr_size c) (c_max_dlc c) (c_motorola c) (c_gran c) (c_sbm c) (c_mbm c) (c_max_bs c) (c_min_st c) (c_queue_size c) (c_max_bs_pgm c) (c_min_st_pgm c) (c_max_sector c) (c_pgm_props c) (c_cal c) (c_daq c) (c_pgm c) v (c_prot_cal c) (c_prot_daq c) (c_prot_stim c) (c_prot_pgm c) (c_chkmem c) (c_mapper c) (c_idhook c) (c_id0 c) (c_id1 c) (c_max_ent c) (c_events c) (c_ts c) (c_ts_size c) (c_prescaler c) (c_clock_always c) (c_reset_seq c) (c_queue_slots c) (c_cks c) (c_chunked c) (c_chunk c) (c_max_blk c) (c_stats c) (c_ev_api c) (c_srv_api c) (c_lock c) (c_ptr_bits c) (c_host_be c) (c_buf_addr c) (c_can_id c) (c_daq_ids c).
Definition w_prot_cal (v : bool) (c : cfg) : cfg :=
  mkCfg (c_max_cto c) (c_max_dto c) (c_len_size c) (c_ctr_size c) (c_max_dlc c) (c_motorola c) (c_gran c) (c_sbm c) (c_mbm c) (c_max_bs c) (c_min_st c) (c_queue_size c) (c_max_bs_pgm c) (c_min_st_pgm c) (c_max_sector c) (c_pgm_props c) (c_cal c) (c_daq c) (c_pgm c) (c_opt c) v (c_prot_daq c) (c_prot_stim c) (c_prot_pgm c) (c_chkmem c) (c_mapper c) (c_idhook c) (c_id0 c) (c_id1 c) (c_max_ent c) (c_events c) (c_ts c) (c_ts_size c) (c_prescaler c) (c_clock_always c) (c_reset_seq c) (c_queue_slots c) (c_cks c) (c_chunked c) (c_chunk c) (c_max_blk c) (c_stats c) (c_ev_api c) (c_srv_api c) (c_lock c) (c_ptr_bits c) (c_host_be c) (c_buf_addr c) (c_can_id c) (c_daq_ids c).
Definition w_prot_daq (v : bool) (c : cfg) : cfg :=
  mkCfg (c_max_cto c) (c_max_dto c) (c_len_size c) (c_ctr_size c) (c_max_dlc c) (c_motorola c) (c_gran c) (c_sbm c) (c_mbm c) (c_max_bs c) (c_min_st c) (c_queue_size c) (c_max_bs_pgm c) (c_min_st_pgm c) (c_max_sector c) (c_pgm_props c) (c_cal c) (c_daq c) (c_pgm c) (c_opt c) (c_prot_cal c) v (c_prot_stim c) (c_prot_pgm c) (c_chkmem c) (c_mapper c) (c_idhook c) (c_id0 c) (c_id1 c) (c_max_ent c) (c_events c) (c_ts c) (c_ts_size c) (c_prescaler c) (c_clock_always c) (c_reset_seq c) (c_queue_slots c) (c_cks c) (c_chunked c) (c_chunk c) (c_max_blk c) (c_stats c) (c_ev_api c) (c_srv_api c) (c_lock c) (c_ptr_bits c) (c_host_be c) (c_buf_addr c) (c_can_id c) (c_daq_ids c).
Definition w_prot_pgm (v : bool) (c : cfg) : cfg :=
  mkCfg (c_max_cto c) (c_max_dto c) (c_len_size c) (c_ctr_size c) (c_max_dlc c) (c_motorola c) (c_gran c) (c_sbm c) (c_mbm c) (c_max_bs c) (c_min_st c) (c_queue_size c) (c_max_bs_pgm c) (c_min_st_pgm c) (c_max_sector c) (c_pgm_props c) (c_cal c) (c_daq c) (c_pgm c) (c_opt c) (c_prot_cal c) (c_prot_daq c) (c_prot_stim c) v (c_chkmem c) (c_mapper c) (c_idhook c) (c_id0 c) (c_id1 c) (c_max_ent c) (c_events c) (c_ts c) (c_ts_size c) (c_prescaler c) (c_clock_always c) (c_reset_seq c) (c_queue_slots c) (c_cks c) (c_chunked c) (c_chunk c) (c_max_blk c) (c_stats c) (c_ev_api c) (c_srv_api c) (c_lock c) (c_ptr_bits c) (c_host_be c) (c_buf_addr c) (c_can_id c) (c_daq_ids c).
Definition w_pgm (v : bool) (c : cfg) : cfg :=
  mkCfg (c_max_cto c) (c_max_dto c) (c_len_size c) (c_ctr_size c) (c_max_dlc c) (c_motorola c) (c_gran c) (c_sbm c) (c_mbm c) (c_max_bs c) (c_min_st c) (c_queue_size c) (c_max_bs_pgm c) (c_min_st_pgm c) (c_max_sector c) (c_pgm_props c) (c_cal c) (c_daq c) v (c_opt c) (c_prot_cal c) (c_prot_daq c) (c_prot_stim c) (c_prot_pgm c) (c_chkmem c) (c_mapper c) (c_idhook c) (c_id0 c) (c_id1 c) (c_max_ent c) (c_events c) (c_ts c) (c_ts_size c) (c_prescaler c) (c_clock_always c) (c_reset_seq c) (c_queue_slots c) (c_cks c) (c_chunked c) (c_chunk c) (c_max_blk c) (c_stats c) (c_ev_api c) (c_srv_api c) (c_lock c) (c_ptr_bits c) (c_host_be c) (c_buf_addr c) (c_can_id c) (c_daq_ids c).
Definition w_daq (v : bool) (c : cfg) : cfg :=
  mkCfg (c_max_cto c) (c_max_dto c) (c_len_size c) (c_ctr_size c) (c_max_dlc c) (c_motorola c) (c_gran c) (c_sbm c) (c_mbm c) (c_max_bs c) (c_min_st c) (c_queue_size c) (c_max_bs_pgm c) (c_min_st_pgm c) (c_max_sector c) (c_pgm_props c) (c_cal c) v (c_pgm c) (c_opt c) (c_prot_cal c) (c_prot_daq c) (c_prot_stim c) (c_prot_pgm c) (c_chkmem c) (c_mapper c) (c_idhook c) (c_id0 c) (c_id1 c) (c_max_ent c) (c_events c) (c_ts c) (c_ts_size c) (c_prescaler c) (c_clock_always c) (c_reset_seq c) (c_queue_slots c) (c_cks c) (c_chunked c) (c_chunk c) (c_max_blk c) (c_stats c) (c_ev_api c) (c_srv_api c) (c_lock c) (c_ptr_bits c) (c_host_be c) (c_buf_addr c) (c_can_id c) (c_daq_ids c).
Definition w_cal (v : bool) (c : cfg) : cfg :=
  mkCfg (c_max_cto c) (c_max_dto c) (c_len_size c) (c_ctr_size c) (c_max_dlc c) (c_motorola c) (c_gran c) (c_sbm c) (c_mbm c) (c_max_bs c) (c_min_st c) (c_queue_size c) (c_max_bs_pgm c) (c_min_st_pgm c) (c_max_sector c) (c_pgm_props c) v (c_daq c) (c_pgm c) (c_opt c) (c_prot_cal c) (c_prot_daq c) (c_prot_stim c) (c_prot_pgm c) (c_chkmem c) (c_mapper c) (c_idhook c) (c_id0 c) (c_id1 c) (c_max_ent c) (c_events c) (c_ts c) (c_ts_size c) (c_prescaler c) (c_clock_always c) (c_reset_seq c) (c_queue_slots c) (c_cks c) (c_chunked c) (c_chunk c) (c_max_blk c) (c_stats c) (c_ev_api c) (c_srv_api c) (c_lock c) (c_ptr_bits c) (c_host_be c) (c_buf_addr c) (c_can_id c) (c_daq_ids c).
Definition w_max_bs (v : N) (c : cfg) : cfg :=
  mkCfg (c_max_cto c) (c_max_dto c) (c_len_size c) (c_ctr_size c) (c_max_dlc c) (c_motorola c) (c_gran c) (c_sbm c) (c_mbm c) v (c_min_st c) (c_queue_size c) (c_max_bs_pgm c) (c_min_st_pgm c) (c_max_sector c) (c_pgm_props c) (c_cal c) (c_daq c) (c_pgm c) (c_opt c) (c_prot_cal c) (c_prot_daq c) (c_prot_stim c) (c_prot_pgm c) (c_chkmem c) (c_mapper c) (c_idhook c) (c_id0 c) (c_id1 c) (c_max_ent c) (c_events c) (c_ts c) (c_ts_size c) (c_prescaler c) (c_clock_always c) (c_reset_seq c) (c_queue_slots c) (c_cks c) (c_chunked c) (c_chunk c) (c_max_blk c) (c_stats c) (c_ev_api c) (c_srv_api c) (c_lock c) (c_ptr_bits c) (c_host_be c) (c_buf_addr c) (c_can_id c) (c_daq_ids c).
Definition w_prescaler (v : bool) (c : cfg) : cfg :=
  mkCfg (c_max_cto c) (c_max_dto c) (c_len_size c) (c_ctr_size c) (c_max_dlc c) (c_motorola c) (c_gran c) (c_sbm c) (c_mbm c) (c_max_bs c) (c_min_st c) (c_queue_size c) (c_max_bs_pgm c) (c_min_st_pgm c) (c_max_sector c) (c_pgm_props c) (c_cal c) (c_daq c) (c_pgm c) (c_opt c) (c_prot_cal c) (c_prot_daq c) (c_prot_stim c) (c_prot_pgm c) (c_chkmem c) (c_mapper c) (c_idhook c) (c_id0 c) (c_id1 c) (c_max_ent c) (c_events c) (c_ts c) (c_ts_size c) v (c_clock_always c) (c_reset_seq c) (c_queue_slots c) (c_cks c) (c_chunked c) (c_chunk c) (c_max_blk c) (c_stats c) (c_ev_api c) (c_srv_api c) (c_lock c) (c_ptr_bits c) (c_host_be c) (c_buf_addr c) (c_can_id c) (c_daq_ids c).
Definition w_clock_always (v : bool) (c : cfg) : cfg :=
  mkCfg (c_max_cto c) (c_max_dto c) (c_len_size c) (c_ctr_size c) (c_max_dlc c) (c_motorola c) (c_gran c) (c_sbm c) (c_mbm c) (c_max_bs c) (c_min_st c) (c_queue_size c) (c_max_bs_pgm c) (c_min_st_pgm c) (c_max_sector c) (c_pgm_props c) (c_cal c) (c_daq c) (c_pgm c) (c_opt c) (c_prot_cal c) (c_prot_daq c) (c_prot_stim c) (c_prot_pgm c) (c_chkmem c) (c_mapper c) (c_idhook c) (c_id0 c) (c_id1 c) (c_max_ent c) (c_events c) (c_ts c) (c_ts_size c) (c_prescaler c) v (c_reset_seq c) (c_queue_slots c) (c_cks c) (c_chunked c) (c_chunk c) (c_max_blk c) (c_stats c) (c_ev_api c) (c_srv_api c) (c_lock c) (c_ptr_bits c) (c_host_be c) (c_buf_addr c) (c_can_id c) (c_daq_ids c).
Definition w_buf_addr (v : N) (c : cfg) : cfg :=
  mkCfg (c_max_cto c) (c_max_dto c) (c_len_size c) (c_ctr_size c) (c_max_dlc c) (c_motorola c) (c_gran c) (c_sbm c) (c_mbm c) (c_max_bs c) (c_min_st c) (c_queue_size c) (c_max_bs_pgm c) (c_min_st_pgm c) (c_max_sector c) (c_pgm_props c) (c_cal c) (c_daq c) (c_pgm c) (c_opt c) (c_prot_cal c) (c_prot_daq c) (c_prot_stim c) (c_prot_pgm c) (c_chkmem c) (c_mapper c) (c_idhook c) (c_id0 c) (c_id1 c) (c_max_ent c) (c_events c) (c_ts c) (c_ts_size c) (c_prescaler c) (c_clock_always c) (c_reset_seq c) (c_queue_slots c) (c_cks c) (c_chunked c) (c_chunk c) (c_max_blk c) (c_stats c) (c_ev_api c) (c_srv_api c) (c_lock c) (c_ptr_bits c) (c_host_be c) v (c_can_id c) (c_daq_ids c).
Definition w_daq_ids (v : list N) (c : cfg) : cfg :=
  mkCfg (c_max_cto c) (c_max_dto c) (c_len_size c) (c_ctr_size c) (c_max_dlc c) (c_motorola c) (c_gran c) (c_sbm c) (c_mbm c) (c_max_bs c) (c_min_st c) (c_queue_size c) (c_max_bs_pgm c) (c_min_st_pgm c) (c_max_sector c) (c_pgm_props c) (c_cal c) (c_daq c) (c_pgm c) (c_opt c) (c_prot_cal c) (c_prot_daq c) (c_prot_stim c) (c_prot_pgm c) (c_chkmem c) (c_mapper c) (c_idhook c) (c_id0 c) (c_id1 c) (c_max_ent c) (c_events c) (c_ts c) (c_ts_size c) (c_prescaler c) (c_clock_always c) (c_reset_seq c) (c_queue_slots c) (c_cks c) (c_chunked c) (c_chunk c) (c_max_blk c) (c_stats c) (c_ev_api c) (c_srv_api c) (c_lock c) (c_ptr_bits c) (c_host_be c) (c_buf_addr c) (c_can_id c) v.
