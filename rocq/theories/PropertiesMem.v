(** C20 - C31: memory transfer. *)
From Coq Require Import NArith List Bool Lia.
From Verif Require Import Base Config Cfgs Codec State Core Spec Demo SpecMem ProofsMem ProofsBlock ProofsWrite ProofsModify ProofsMem2 ProofsRx CasesMem.
Import ListNotations.
Open Scope N_scope.

(** ** C20 UPLOAD returns exactly the addressed memory *)

(** 0xFF and the [n] bytes at the MTA; of the session only the MTA changes. *)
Theorem C20_upload : forall c m l s o e n t,
  reachable c m l s o -> ready s ->
  c_opt c 0xF5 = true -> c_sbm c = false -> ~ programming s -> lenN (0xF5 :: n :: t) <= c_ctobuf c ->
  granted c e (s_mext s) (s_maddr s) n false false -> 1 <= n < c_max_cto c ->
  in_space c (target c e (s_mext s) (s_maddr s)) n ->
  delivers c e (0xF5 :: n :: t) s (0xFF :: mem_at (s_mem s) (target c e (s_mext s) (s_maddr s)) n) (advanced c n s).
Proof. intros c m l s o e n t R RD. exact (upload_thm c m l s o e R RD n t). Qed.
Print Assumptions C20_upload.

Theorem C20_too_long : forall c m l s o e n t,
  reachable c m l s o -> ready s -> dlc_ok c ->
  c_opt c 0xF5 = true -> c_sbm c = false -> ~ programming s -> lenN (0xF5 :: n :: t) <= c_ctobuf c ->
  granted c e (s_mext s) (s_maddr s) n false false -> c_max_cto c <= n ->
  refuses c e (0xF5 :: n :: t) s 0x22.
Proof. intros c m l s o e n t R RD. exact (upload_long c m l s o e R RD n t). Qed.
Print Assumptions C20_too_long.

Theorem C20_denied : forall c m l s o e n t,
  reachable c m l s o -> ready s -> dlc_ok c ->
  c_opt c 0xF5 = true -> ~ programming s -> lenN (0xF5 :: n :: t) <= c_ctobuf c ->
  ~ granted c e (s_mext s) (s_maddr s) n false false ->
  refuses c e (0xF5 :: n :: t) s 0x24.
Proof. intros c m l s o e n t R RD. exact (upload_denied c m l s o e R RD n t). Qed.
Print Assumptions C20_denied.

Theorem C20_programming : forall c m l s o e n t,
  reachable c m l s o -> ready s -> dlc_ok c -> c_opt c 0xF5 = true -> c_pgm c = true -> programming s ->
  lenN (0xF5 :: n :: t) <= c_ctobuf c -> refuses c e (0xF5 :: n :: t) s 0x12.
Proof. exact upload_busy_pgm. Qed.
Print Assumptions C20_programming.

(** MTA 0x2000 (extension 1), a length of 5 and one of 64. *)
Example C20_case :
  let s := demo_st cfg_eth env_yes ex_mta in
  reachable cfg_eth mem0 (map (pair env_yes) ex_mta) s (demo_out cfg_eth env_yes ex_mta) /\ ready s /\ dlc_ok cfg_eth /\
  c_opt cfg_eth 0xF5 = true /\ c_sbm cfg_eth = false /\ ~ programming s /\
  granted cfg_eth env_yes (s_mext s) (s_maddr s) 5 false false /\ in_space cfg_eth (target cfg_eth env_yes (s_mext s) (s_maddr s)) 5 /\
  ~ granted cfg_eth env_no (s_mext s) (s_maddr s) 5 false false /\ c_max_cto cfg_eth <= 64 /\
  s_maddr s = 0x2000 /\ s_mext s = 1 /\
  map p_data (match step cfg_eth env_yes (ORecv [0xF5; 5]) s with Ok (_, o) => o | UB _ => [] end) = [[0xFF; 0; 1; 2; 3; 4]].
Proof.
  cbv zeta. split; [apply eth_at; vm_compute; reflexivity|].
  facts.
  split; [intro H; vm_compute in H; specialize (H eq_refl); discriminate|].
  facts. vm_compute. reflexivity.
Qed.

(** ** C21 SHORT_UPLOAD returns exactly the addressed memory *)
Theorem C21_short_upload : forall c m l s o e n r x a0 a1 a2 a3 t,
  let f := 0xF4 :: n :: r :: x :: a0 :: a1 :: a2 :: a3 :: t in
  let a := field c [a0; a1; a2; a3] in
  reachable c m l s o -> ready s ->
  c_opt c 0xF4 = true -> c_sbm c = false -> ~ programming s -> lenN f <= c_ctobuf c ->
  granted c e (s_mext s) (s_maddr s) n false false -> 1 <= n < c_max_cto c -> in_space c (target c e x a) n ->
  delivers c e f s (0xFF :: mem_at (s_mem s) (target c e x a) n) (mta_at c x (a + n) s).
Proof. intros c m l s o e n r x a0 a1 a2 a3 t f a R RD. exact (short_upload_thm c m l s o e R RD n r x a0 a1 a2 a3 t). Qed.
Print Assumptions C21_short_upload.

(** The same where slave block mode is compiled in. *)
Theorem C21_short_upload_block : forall c m l s o e n r x a0 a1 a2 a3 t,
  let f := 0xF4 :: n :: r :: x :: a0 :: a1 :: a2 :: a3 :: t in
  let a := field c [a0; a1; a2; a3] in
  reachable c m l s o -> ready s -> c_sbm c = true -> c_lock c = LockRecursive -> no_job s -> ~ programming s ->
  c_opt c 0xF4 = true -> lenN f <= c_ctobuf c -> a < aspace c ->
  granted c e (s_mext s) (s_maddr s) n false false -> 1 <= n < c_max_cto c ->
  forall b, maps_block c x a n b e -> in_space c b n ->
  exists s' o', step c e (ORecv f) s = Ok (s', o') /\ sends_data c o' (0xFF :: mem_at (s_mem s) b n) /\
    upl (mta_at c x a s) c n n s'.
Proof.
  intros c m l s o e n r x a0 a1 a2 a3 t f a R RD B K J P. exact (short_upload_block c m l s o R RD B K J P e n r x a0 a1 a2 a3 t).
Qed.
Print Assumptions C21_short_upload_block.

Example C21_case :
  let s := demo_st cfg_eth env_yes ex_mta in let s2 := demo_st cfg_sbm env_yes ex_mta in
  (reachable cfg_eth mem0 (map (pair env_yes) ex_mta) s (demo_out cfg_eth env_yes ex_mta) /\
   reachable cfg_sbm mem0 (map (pair env_yes) ex_mta) s2 (demo_out cfg_sbm env_yes ex_mta)) /\
  ready s /\ ready s2 /\ ~ programming s /\ ~ programming s2 /\ no_job s2 /\ c_lock cfg_sbm = LockRecursive /\
  granted cfg_eth env_yes (s_mext s) (s_maddr s) 4 false false /\ granted cfg_sbm env_yes (s_mext s) (s_maddr s) 4 false false /\
  lenN ex_short <= c_ctobuf cfg_sbm /\
  field cfg_sbm [0x10; 0x30; 0; 0] = 0x3010 /\ in_space cfg_eth 0x3010 4 /\ in_space cfg_sbm 0x3010 4 /\ maps_block cfg_sbm 3 0x3010 4 0x3010 env_yes.
Proof.
  cbv zeta. split; [split; [apply eth_at|apply demo_at; [exact wf_sbm|apply wf_yes; exact wf_sbm|]]; vm_compute; reflexivity|].
  do 12 fact.
  intros i Hi. unfold target, aspace. cbn [c_mapper cfg_sbm w_sbm cfg_can c_ptr_bits]. rewrite N.mod_small; [reflexivity|].
  assert (0x3010 + 4 < 2 ^ 32) by reflexivity. lia.
Qed.

(** ** C22 Slave block mode delivers the whole block and ends *)

(** The response to the command: the first frame; busy unless that was all. *)
Theorem C22_first : forall c m l s o e n t,
  reachable c m l s o -> ready s -> c_sbm c = true -> c_lock c = LockRecursive -> no_job s -> ~ programming s ->
  c_opt c 0xF5 = true -> lenN (0xF5 :: n :: t) <= c_ctobuf c ->
  granted c e (s_mext s) (s_maddr s) n false false -> 1 <= n < 256 ->
  forall b, maps_block c (s_mext s) (s_maddr s) n b e -> in_space c b n ->
  exists s' o', step c e (ORecv (0xF5 :: n :: t)) s = Ok (s', o') /\
    sends_data c o' (0xFF :: mem_at (s_mem s) b (N.min (full c) n)) /\ upl s c n (N.min (full c) n) s'.
Proof. intros c m l s o e n t R RD B K J P. exact (block_start c m l s o R RD B K J P e n t). Qed.
Print Assumptions C22_first.

(** Whatever the master sends and whatever events occur meanwhile: after [k]
    main-function calls, if [(1 + k)] full frames do not complete the block,
    exactly [1 + k] frames have been sent, they carry the first [(1 + k)] times
    [full] bytes, and the slave is busy. *)
Theorem C22_progress : forall c m l s o e n t l' s' o' b,
  reachable c m l s o -> ready s -> c_sbm c = true -> c_lock c = LockRecursive -> no_job s -> ~ programming s ->
  dlc_ok c -> c_opt c 0xF5 = true -> lenN (0xF5 :: n :: t) <= c_ctobuf c ->
  granted c e (s_mext s) (s_maddr s) n false false -> 1 <= n < 256 -> in_space c b n ->
  wf_run c ((e, ORecv (0xF5 :: n :: t)) :: l') -> Forall may_interleave l' ->
  Forall (fun x => maps_block c (s_mext s) (s_maddr s) n b (fst x)) ((e, ORecv (0xF5 :: n :: t)) :: l') ->
  run c ((e, ORecv (0xF5 :: n :: t)) :: l') s = Ok (s', o') -> (1 + mains l') * full c < n ->
  upl s c n ((1 + mains l') * full c) s' /\ s_busy s' = true /\
  payload o' = mem_at (s_mem s) b ((1 + mains l') * full c) /\ lenN (filter positive o') = 1 + mains l'.
Proof. exact block_progress2. Qed.
Print Assumptions C22_progress.

(** The next main-function call completes the block if the rest fits in a frame:
    then the number of frames is n / full rounded up, they carry the [n] bytes,
    and the slave is not busy any more. *)
Theorem C22_complete : forall c m l s o e n t l' e' b s1 o1,
  reachable c m l s o -> ready s -> c_sbm c = true -> c_lock c = LockRecursive -> no_job s -> ~ programming s ->
  dlc_ok c -> c_opt c 0xF5 = true -> lenN (0xF5 :: n :: t) <= c_ctobuf c ->
  granted c e (s_mext s) (s_maddr s) n false false -> 1 <= n < 256 -> in_space c b n ->
  wf_run c ((e, ORecv (0xF5 :: n :: t)) :: l') -> Forall may_interleave l' ->
  Forall (fun x => maps_block c (s_mext s) (s_maddr s) n b (fst x)) ((e, ORecv (0xF5 :: n :: t)) :: l') ->
  maps_block c (s_mext s) (s_maddr s) n b e' ->
  run c ((e, ORecv (0xF5 :: n :: t)) :: l') s = Ok (s1, o1) -> (1 + mains l') * full c < n <= (2 + mains l') * full c ->
  exists s' o' pad, step c e' OMain s1 = Ok (s', o') /\
    payload (o1 ++ o') = mem_at (s_mem s) b n ++ pad /\ lenN pad = (if c_max_dlc c then (2 + mains l') * full c - n else 0) /\
    lenN (filter positive (o1 ++ o')) = (n + full c - 1) / full c /\ upl s c n n s' /\ s_busy s' = false.
Proof. exact block_complete2. Qed.
Print Assumptions C22_complete.

(** 20 bytes in frames of 8, with another command, an event and a measurement in
    between; one main-function call is still to come. *)
Example C22_case :
  let s := demo_st cfg_sbm env_yes ex_mta in let l' := map (pair env_yes) ex_between in
  reachable cfg_sbm mem0 (map (pair env_yes) ex_mta) s (demo_out cfg_sbm env_yes ex_mta) /\
  ready s /\ ~ programming s /\ no_job s /\ granted cfg_sbm env_yes (s_mext s) (s_maddr s) 20 false false /\ in_space cfg_sbm 0x2000 20 /\
  is_ok (run cfg_sbm ((env_yes, ORecv [0xF5; 20]) :: l') s) = true /\ (1 + mains l') * full cfg_sbm < 20 <= (2 + mains l') * full cfg_sbm /\
  wf_run cfg_sbm ((env_yes, ORecv [0xF5; 20]) :: l') /\ Forall may_interleave l' /\
  maps_block cfg_sbm (s_mext s) (s_maddr s) 20 0x2000 env_yes.
Proof.
  cbv zeta. split; [apply demo_at; [exact wf_sbm|apply wf_yes; exact wf_sbm|vm_compute; reflexivity]|].
  do 7 fact.
  split; [apply (wf_run_b cfg_sbm env_yes (ORecv [0xF5; 20] :: ex_between)); [apply wf_yes; exact wf_sbm|reflexivity]|].
  split; [repeat constructor|].
  intros i Hi. replace (s_maddr _) with 0x2000 by (vm_compute; reflexivity). unfold target, aspace.
  cbn [c_mapper cfg_sbm w_sbm cfg_can c_ptr_bits]. apply N.mod_small.
  assert (0x2000 + 20 < 2 ^ 32) by reflexivity. lia.
Qed.

(** ** C23 DOWNLOAD writes exactly the sent bytes *)
Theorem C23_download : forall c m l s o e bs t,
  let n := lenN bs in let f := 0xF0 :: n :: bs ++ t in let b := target c e (s_mext s) (s_maddr s) in
  reachable c m l s o -> ready s ->
  dlc_ok c -> c_cal c = true -> ~ programming s -> lenN f <= c_ctobuf c -> c_buf_addr c + 2 < 2 ^ 32 ->
  granted c e (s_mext s) (s_maddr s) n true false -> 1 <= n <= c_max_cto c - 2 -> (c_mbm c = true -> 1 <= c_max_bs c) ->
  b <> 0 -> in_space c b n ->
  stores c e f s b bs (advanced c n (idle_block c s)) (fun o => sends o (padded c [0xFF])).
Proof. intros c m l s o e bs t n f b R RD. exact (download_thm c m l s o e R RD bs t). Qed.
Print Assumptions C23_download.

Theorem C23_refused : forall c m l s o e n t,
  reachable c m l s o -> ready s -> dlc_ok c -> c_cal c = true -> lenN (0xF0 :: n :: t) <= c_ctobuf c ->
  (programming s -> refuses c e (0xF0 :: n :: t) s 0x12) /\
  (~ programming s -> ~ granted c e (s_mext s) (s_maddr s) n true false -> refuses c e (0xF0 :: n :: t) s 0x24) /\
  (~ programming s -> granted c e (s_mext s) (s_maddr s) n true false ->
   c_max_cto c - 2 < n -> (c_mbm c = true -> c_max_bs c * (c_max_cto c - 2) < n) ->
   answers c e (0xF0 :: n :: t) s [0xFE; 0x22] (idle_block c s)).
Proof. intros c m l s o e n t R RD. exact (download_refused c m l s o e R RD n t). Qed.
Print Assumptions C23_refused.

(** DOWNLOAD, SET_MTA to the same address, UPLOAD of as many bytes: the data. *)
Theorem C23_read_back : forall c m l s o e bs e2 r0 r1 x a0 a1 a2 a3 e3,
  reachable c m l s o -> ready s -> dlc_ok c -> c_cal c = true -> c_opt c 0xF6 = true -> c_opt c 0xF5 = true -> c_sbm c = false ->
  ~ programming s -> wf_env c e -> wf_env c e2 -> bytes (lenN bs :: bs) -> bytes [r0; r1; x; a0; a1; a2; a3] ->
  c_buf_addr c + 2 < 2 ^ 32 -> 1 <= lenN bs <= c_max_cto c - 2 -> (c_mbm c = true -> 1 <= c_max_bs c) ->
  s_mext s = x -> s_maddr s = field c [a0; a1; a2; a3] ->
  granted c e x (s_maddr s) (lenN bs) true false -> granted c e3 x (s_maddr s) (lenN bs) false false ->
  target c e3 x (s_maddr s) = target c e x (s_maddr s) -> target c e x (s_maddr s) <> 0 -> in_space c (target c e x (s_maddr s)) (lenN bs) ->
  exists s' o1 o2 o3,
    run c [(e, ORecv (0xF0 :: lenN bs :: bs)); (e2, ORecv [0xF6; r0; r1; x; a0; a1; a2; a3]); (e3, ORecv [0xF5; lenN bs])] s
      = Ok (s', o1 ++ o2 ++ o3) /\
    sends o1 (padded c [0xFF]) /\ sends o2 (padded c [0xFF]) /\ sends_data c o3 (0xFF :: bs).
Proof. exact read_back. Qed.
Print Assumptions C23_read_back.

Example C23_case :
  let s := demo_st cfg_eth env_yes ex_mta in
  reachable cfg_eth mem0 (map (pair env_yes) ex_mta) s (demo_out cfg_eth env_yes ex_mta) /\ ready s /\ ~ programming s /\
  c_cal cfg_eth = true /\ c_opt cfg_eth 0xF6 = true /\ c_opt cfg_eth 0xF5 = true /\ c_sbm cfg_eth = false /\ c_buf_addr cfg_eth + 2 < 2 ^ 32 /\
  granted cfg_eth env_yes 1 0x2000 3 true false /\ granted cfg_eth env_yes 1 0x2000 3 false false /\
  s_mext s = 1 /\ s_maddr s = field cfg_eth [0; 0x20; 0; 0] /\ s_maddr s = 0x2000 /\ in_space cfg_eth 0x2000 3 /\
  map p_data (match run cfg_eth (map (pair env_yes) [ORecv [0xF0; 3; 0xAA; 0xBB; 0xCC]; ORecv [0xF6; 0; 0; 1; 0; 0x20; 0; 0]; ORecv [0xF5; 3]]) s
       with Ok (_, o) => o | UB _ => [] end) = [[0xFF]; [0xFF]; [0xFF; 0xAA; 0xBB; 0xCC]].
Proof.
  cbv zeta. split; [apply eth_at; vm_compute; reflexivity|].
  facts. vm_compute. reflexivity.
Qed.

(** ** C24 Master block mode reassembles the block *)
Theorem C24_master_block : forall c m l s o e n d pad rest fs l' b,
  reachable c m l s o -> ready s -> dlc_ok c -> c_cal c = true -> c_mbm c = true ->
  ~ programming s -> c_buf_addr c + 2 < 2 ^ 32 -> granted c e (s_mext s) (s_maddr s) n true false ->
  n = lenN (d ++ rest) -> lenN d = c_max_cto c - 2 -> next_frames (c_max_cto c - 2) rest fs ->
  n < 256 -> n <= c_max_bs c * (c_max_cto c - 2) ->
  wf_run c ((e, ORecv (0xF0 :: n :: d ++ pad)) :: l') -> map snd l' = map ORecv fs ->
  Forall (fun f => lenN f <= c_ctobuf c) ((0xF0 :: n :: d ++ pad) :: fs) ->
  Forall (fun x => maps_block c (s_mext s) (s_maddr s) n b (fst x)) ((e, ORecv (0xF0 :: n :: d ++ pad)) :: l') -> b <> 0 -> in_space c b n ->
  exists s' o' m', run c ((e, ORecv (0xF0 :: n :: d ++ pad)) :: l') s = Ok (s', o') /\ sends o' (padded c [0xFF]) /\
    wrote (s_mem s) b (d ++ rest) m' /\ same_session (set_s_mem m' (block_done c n s)) s'.
Proof. exact master_block. Qed.
Print Assumptions C24_master_block.

(** 14 bytes in three frames. *)
Example C24_case :
  let s := demo_st cfg_can env_yes ex_mta in let l' := map (pair env_yes) (map ORecv ex_next) in
  reachable cfg_can mem0 (map (pair env_yes) ex_mta) s (demo_out cfg_can env_yes ex_mta) /\ ready s /\ ~ programming s /\
  c_mbm cfg_can = true /\ c_buf_addr cfg_can + 2 < 2 ^ 32 /\ granted cfg_can env_yes (s_mext s) (s_maddr s) 14 true false /\
  14 = lenN (ex_d ++ ex_rest) /\ lenN ex_d = c_max_cto cfg_can - 2 /\ 14 <= c_max_bs cfg_can * (c_max_cto cfg_can - 2) /\
  map snd l' = map ORecv ex_next /\ in_space cfg_can 0x2000 14 /\
  Forall (fun f => lenN f <= c_ctobuf cfg_can) ((0xF0 :: 14 :: ex_d) :: ex_next) /\
  next_frames (c_max_cto cfg_can - 2) ex_rest ex_next /\
  wf_run cfg_can ((env_yes, ORecv (0xF0 :: 14 :: ex_d ++ [])) :: l') /\ maps_block cfg_can (s_mext s) (s_maddr s) 14 0x2000 env_yes.
Proof.
  cbv zeta. split; [apply can_at; vm_compute; reflexivity|].
  do 10 fact.
  split; [repeat constructor; vm_compute; congruence|].
  split.
  { apply (nf_more 6 [20; 21; 22; 23; 24; 25] [30; 31] [] [[0xEF; 2; 30; 31]]); [reflexivity|].
    apply (nf_last 6 [30; 31] []). vm_compute. split; congruence. }
  split; [apply (wf_run_b cfg_can env_yes (ORecv (0xF0 :: 14 :: ex_d) :: map ORecv ex_next)); [apply wf_yes, wf_can|reflexivity]|].
  intros i Hi. replace (s_maddr _) with 0x2000 by (vm_compute; reflexivity). unfold target, aspace.
  cbn [c_mapper cfg_can c_ptr_bits]. apply N.mod_small. assert (0x2000 + 14 < 2 ^ 32) by reflexivity. lia.
Qed.

(** ** C25 Master block mode rejects wrong remaining counts: it does not *)

(** A DOWNLOAD_NEXT without a block in progress is refused. *)
Theorem C25_inactive : forall c m l s o e r t,
  reachable c m l s o -> ready s -> dlc_ok c -> c_cal c = true -> c_opt c 0xEF = true -> ~ programming s -> s_mact s = false ->
  lenN (0xEF :: r :: t) <= c_ctobuf c -> refuses c e (0xEF :: r :: t) s 0x29.
Proof. intros c m l s o e r t R RD. exact (next_inactive c m l s o e R RD r t). Qed.
Print Assumptions C25_inactive.

(** During a block every count is accepted, a wrong one included: the data is
    stored and no error is sent. *)
Theorem C25_refuted : forall c m l s o e r bs t,
  let f := 0xEF :: r :: bs ++ t in let b := target c e (s_mext s) (s_maddr s) in
  reachable c m l s o -> ready s -> dlc_ok c -> c_cal c = true -> c_opt c 0xEF = true -> ~ programming s -> s_mact s = true ->
  lenN f <= c_ctobuf c -> c_buf_addr c + 2 < 2 ^ 32 -> lenN bs = N.min r (c_max_cto c - 2) -> 1 <= r ->
  b <> 0 -> in_space c b (lenN bs) -> r <> s_mrem s ->
  exists s1, stores c e f s b bs s1 (fun o => o = [] \/ sends o (padded c [0xFF])).
Proof. exact next_any. Qed.
Print Assumptions C25_refuted.

(** More data than announced is stored as well; the block then stays open for
    another 256 bytes less the excess. *)
Theorem C25_overrun_refuted : forall c m l s o e r bs t,
  let f := 0xEF :: r :: bs ++ t in let b := target c e (s_mext s) (s_maddr s) in
  reachable c m l s o -> ready s -> dlc_ok c -> c_cal c = true -> c_opt c 0xEF = true -> ~ programming s -> s_mact s = true ->
  lenN f <= c_ctobuf c -> c_buf_addr c + 2 < 2 ^ 32 -> lenN bs = N.min r (c_max_cto c - 2) -> 1 <= r ->
  b <> 0 -> in_space c b (lenN bs) -> s_mrem s < lenN bs ->
  stores c e f s b bs (set_s_mrem (256 - (lenN bs - s_mrem s)) (set_s_mact true (advanced c (lenN bs) s))) (fun o => o = []).
Proof. exact next_overrun. Qed.
Print Assumptions C25_overrun_refuted.

(** DOWNLOAD announced 9 bytes; 3 are to come, the frame brings 6. *)
Example C25_case :
  let s := demo_st cfg_can env_yes ex_nine in
  reachable cfg_can mem0 (map (pair env_yes) ex_nine) s (demo_out cfg_can env_yes ex_nine) /\ ready s /\ ~ programming s /\
  s_mact s = true /\ s_mrem s = 3 /\ c_opt cfg_can 0xEF = true /\ lenN [7; 8; 9; 10; 11; 12] = N.min 6 (c_max_cto cfg_can - 2) /\
  s_maddr s = 0x2006 /\ in_space cfg_can 0x2006 6 /\
  match step cfg_can env_yes (ORecv [0xEF; 6; 7; 8; 9; 10; 11; 12]) s with
  | Ok (s', o) => o = [] /\ s_mrem s' = 253 /\ mem_at (s_mem s') 0x2000 13 = [1; 2; 3; 4; 5; 6; 7; 8; 9; 10; 11; 12; 12]
  | UB _ => False
  end.
Proof.
  cbv zeta. split; [apply can_at; vm_compute; reflexivity|].
  facts. vm_compute. repeat split.
Qed.

(** ** C26 SHORT_DOWNLOAD effects *)

(** The data is stored at the address given, but the old MTA is advanced. *)
Theorem C26_short_download : forall c m l s o e r x a0 a1 a2 a3 bs t,
  let n := lenN bs in let f := 0xED :: n :: r :: x :: a0 :: a1 :: a2 :: a3 :: bs ++ t in
  let a := field c [a0; a1; a2; a3] in let b := target c e x a in
  reachable c m l s o -> ready s -> dlc_ok c -> c_cal c = true -> c_opt c 0xED = true -> ~ programming s -> lenN f <= c_ctobuf c ->
  granted c e x a n true false -> 1 <= n <= c_max_cto c - 8 -> b <> 0 -> in_space c b n ->
  stores c e f s b bs (advanced c n s) (fun o => sends o (padded c [0xFF])).
Proof. intros c m l s o e r x a0 a1 a2 a3 bs t n f a b R RD. exact (short_download_thm c m l s o e R RD r x a0 a1 a2 a3 bs t). Qed.
Print Assumptions C26_short_download.

(** The MTA is what the standard says exactly when it pointed to the address
    before the command. *)
Theorem C26_mta_refuted : forall c m l s o e r x a0 a1 a2 a3 bs t,
  let n := lenN bs in let f := 0xED :: n :: r :: x :: a0 :: a1 :: a2 :: a3 :: bs ++ t in
  let a := field c [a0; a1; a2; a3] in let b := target c e x a in
  reachable c m l s o -> ready s -> dlc_ok c -> c_cal c = true -> c_opt c 0xED = true -> ~ programming s -> bytes f -> lenN f <= c_ctobuf c ->
  granted c e x a n true false -> 1 <= n <= c_max_cto c - 8 -> b <> 0 -> in_space c b n ->
  exists s' o', step c e (ORecv f) s = Ok (s', o') /\ sends o' (padded c [0xFF]) /\
    (s_mext s' = x /\ s_maddr s' = (a + n) mod aspace c <-> s_mext s = x /\ s_maddr s = a).
Proof. exact short_download_mta. Qed.
Print Assumptions C26_mta_refuted.

Example C26_case :
  let s := demo_st cfg_eth env_yes ex_mta in
  reachable cfg_eth mem0 (map (pair env_yes) ex_mta) s (demo_out cfg_eth env_yes ex_mta) /\ ready s /\ ~ programming s /\
  c_opt cfg_eth 0xED = true /\ lenN ex_sdown <= c_ctobuf cfg_eth /\ granted cfg_eth env_yes 1 0x5000 2 true false /\
  field cfg_eth [0; 0x50; 0; 0] = 0x5000 /\ in_space cfg_eth 0x5000 2 /\
  match step cfg_eth env_yes (ORecv ex_sdown) s with
  | Ok (s', _) => s_maddr s' = 0x2002 /\ mem_at (s_mem s') 0x5000 3 = [0x77; 0x78; 2]
  | UB _ => False
  end.
Proof.
  cbv zeta. split; [apply eth_at; vm_compute; reflexivity|].
  facts. vm_compute. repeat split.
Qed.

(** ** C27 MODIFY_BITS computes the specified value: only if no cleared bit is to be set *)

(** The value stored differs from the specified one in the bits of the shifted
    xor mask that are clear in the old value; there the mask has no effect. *)
Theorem C27_refuted : forall c m l s o e sh a0 a1 x0 x1 t,
  let f := 0xEC :: sh :: a0 :: a1 :: x0 :: x1 :: t in
  let am := field c [a0; a1] in let xm := field c [x0; x1] in let v := host_word c (s_mem s) (s_maddr s) in
  reachable c m l s o -> ready s ->
  dlc_ok c -> c_cal c = true -> c_opt c 0xEC = true -> lenN f <= c_ctobuf c -> granted c e (s_mext s) (s_maddr s) 2 true false ->
  s_maddr s <> 0 -> in_space c (s_maddr s) 4 ->
  sh <= 31 -> N.shiftl (N.lxor am 0xFFFF) sh < 2 ^ 31 -> N.shiftl xm sh < 2 ^ 31 ->
  exists bs s' o' m', lenN bs = 4 /\ step c e (ORecv f) s = Ok (s', o') /\ sends o' (padded c [0xFF]) /\
    wrote (s_mem s) (s_maddr s) bs m' /\ same_session (set_s_mem m' s) s' /\
    host_word c m' (s_maddr s) = N.lxor (modify_spec v sh am xm) (N.ldiff (N.shiftl xm sh) v) /\
    (host_word c m' (s_maddr s) = modify_spec v sh am xm <-> N.ldiff (N.shiftl xm sh) v = 0).
Proof. exact modify_iff. Qed.
Print Assumptions C27_refuted.

(** Large shifts are undefined behaviour in the C code. *)
Theorem C27_shift_refuted : forall c m l s o e sh a0 a1 x0 x1 t,
  let f := 0xEC :: sh :: a0 :: a1 :: x0 :: x1 :: t in
  let am := field c [a0; a1] in let xm := field c [x0; x1] in
  reachable c m l s o -> ready s ->
  c_cal c = true -> c_opt c 0xEC = true -> lenN f <= c_ctobuf c -> granted c e (s_mext s) (s_maddr s) 2 true false ->
  s_maddr s <> 0 -> in_space c (s_maddr s) 4 ->
  31 < sh \/ 2 ^ 31 <= N.shiftl (N.lxor am 0xFFFF) sh \/ 2 ^ 31 <= N.shiftl xm sh -> breaks c e f s ShiftUB.
Proof. intros c m l s o e sh a0 a1 x0 x1 t f am xm R RD. exact (modify_shift c m l s o e R RD sh a0 a1 x0 x1 t). Qed.
Print Assumptions C27_shift_refuted.

(** The word 0x03020100: and-mask all ones, xor-mask 0x0010 should give
    0x03020110; nothing changes.  A shift of 16 with and-mask 0x7FFF is defined,
    with and-mask 0 it is not. *)
Example C27_case :
  let s := demo_st cfg_eth env_yes ex_mta in
  reachable cfg_eth mem0 (map (pair env_yes) ex_mta) s (demo_out cfg_eth env_yes ex_mta) /\ ready s /\
  c_opt cfg_eth 0xEC = true /\ granted cfg_eth env_yes (s_mext s) (s_maddr s) 2 true false /\ s_maddr s = 0x2000 /\ in_space cfg_eth 0x2000 4 /\
  host_word cfg_eth (s_mem s) 0x2000 = 0x03020100 /\ modify_spec 0x03020100 0 0xFFFF 0x0010 = 0x03020110 /\
  N.ldiff (N.shiftl 0x0010 0) 0x03020100 = 0x10 /\ N.shiftl (N.lxor 0x7FFF 0xFFFF) 15 < 2 ^ 31 /\ 2 ^ 31 <= N.shiftl (N.lxor 0 0xFFFF) 16 /\
  match step cfg_eth env_yes (ORecv [0xEC; 0; 0xFF; 0xFF; 0x10; 0]) s with
  | Ok (s', _) => host_word cfg_eth (s_mem s') 0x2000 = 0x03020100
  | UB _ => False
  end.
Proof.
  cbv zeta. split; [apply eth_at; vm_compute; reflexivity|].
  facts. vm_compute. reflexivity.
Qed.

(** ** C28 Only write commands modify target memory *)
Theorem C28_only_writes : forall c l s s' o,
  wf_run c l -> run c l s = Ok (s', o) ->
  (forall e x, In (e, x) l ->
     (forall a bs, x <> OAppWrite a bs) /\
     (forall f k, x = ORecv f -> is_cmd k f -> ~ In k [0xF0; 0xEF; 0xEE; 0xED; 0xEC])) ->
  s_mem s' = s_mem s.
Proof. exact only_writes_run. Qed.
Print Assumptions C28_only_writes.

Example C28_case :
  let s := demo_st cfg_can env_yes [] in
  wf_run cfg_can (map (pair env_yes) ex_reads) /\ is_ok (run cfg_can (map (pair env_yes) ex_reads) s) = true /\
  (forall e x, In (e, x) (map (pair env_yes) ex_reads) ->
     (forall a bs, x <> OAppWrite a bs) /\ (forall f k, x = ORecv f -> is_cmd k f -> ~ In k [0xF0; 0xEF; 0xEE; 0xED; 0xEC])).
Proof.
  cbv zeta. split; [apply wf_run_b; [apply wf_yes, wf_can|reflexivity]|]. split; [vm_compute; reflexivity|].
  intros e x H. apply in_map_iff in H. destruct H as (y & E & H). injection E as _ <-.
  cbn in H. repeat (destruct H as [<-|H]); try contradiction; (split; [discriminate|]); intros f k Ef K;
    (discriminate Ef || (injection Ef as <-; injection K as <-; cbn; intuition discriminate)).
Qed.

(** ** C29 PROGRAM stores the data: it stores nothing *)
Theorem C29_refuted : forall c m l s o e n t,
  reachable c m l s o -> ready s -> dlc_ok c -> c_pgm c = true -> programming s ->
  lenN (0xD0 :: n :: t) <= c_ctobuf c -> n < 256 -> granted c e (s_mext s) (s_maddr s) n true true ->
  exists s' o', step c e (ORecv (0xD0 :: n :: t)) s = Ok (s', o') /\ sends o' (padded c [0xFF]) /\
    same_session (advanced c n s) s' /\ s_mem s' = s_mem s.
Proof. exact program_mem. Qed.
Print Assumptions C29_refuted.

Example C29_case :
  let s := demo_st cfg_can env_yes ex_prog in
  reachable cfg_can mem0 (map (pair env_yes) ex_prog) s (demo_out cfg_can env_yes ex_prog) /\ ready s /\ programming s /\
  c_pgm cfg_can = true /\ granted cfg_can env_yes (s_mext s) (s_maddr s) 2 true true /\ lenN [0xD0; 2; 0x55; 0x66] <= c_ctobuf cfg_can /\
  s_maddr s = 0x2000 /\
  match step cfg_can env_yes (ORecv [0xD0; 2; 0x55; 0x66]) s with
  | Ok (s', o) => map p_data o = [[0xFF]] /\ mem_at (s_mem s') 0x2000 2 = [0; 1] /\ s_maddr s' = 0x2002
  | UB _ => False
  end.
Proof.
  cbv zeta. split; [apply can_at; vm_compute; reflexivity|].
  facts. vm_compute. repeat split.
Qed.

(** ** C30 Zero-length and NULL transfers are handled: they fail an assertion *)
Theorem C30_upload_refuted : forall c m l s o e t,
  reachable c m l s o -> ready s -> c_opt c 0xF5 = true -> ~ programming s -> lenN (0xF5 :: 0 :: t) <= c_ctobuf c ->
  granted c e (s_mext s) (s_maddr s) 0 false false -> (c_sbm c = true -> c_lock c = LockRecursive) ->
  breaks c e (0xF5 :: 0 :: t) s Assert.
Proof. intros c m l s o e t R RD. exact (zero_upload c m l s o e R RD t). Qed.
Print Assumptions C30_upload_refuted.

Theorem C30_short_upload_refuted : forall c m l s o e r x a0 a1 a2 a3 t,
  let f := 0xF4 :: 0 :: r :: x :: a0 :: a1 :: a2 :: a3 :: t in
  reachable c m l s o -> ready s -> c_opt c 0xF4 = true -> ~ programming s -> lenN f <= c_ctobuf c ->
  granted c e (s_mext s) (s_maddr s) 0 false false -> (c_sbm c = true -> c_lock c = LockRecursive) -> breaks c e f s Assert.
Proof. intros c m l s o e r x a0 a1 a2 a3 t f R RD. exact (zero_short_upload c m l s o e R RD r x a0 a1 a2 a3 t). Qed.
Print Assumptions C30_short_upload_refuted.

Theorem C30_download_refuted : forall c m l s o e n t,
  reachable c m l s o -> ready s -> c_cal c = true -> ~ programming s -> lenN (0xF0 :: n :: t) <= c_ctobuf c ->
  c_buf_addr c + 2 < 2 ^ 32 -> granted c e (s_mext s) (s_maddr s) n true false -> n <= c_max_cto c - 2 -> (c_mbm c = true -> 1 <= c_max_bs c) ->
  n = 0 \/ target c e (s_mext s) (s_maddr s) = 0 -> breaks c e (0xF0 :: n :: t) s Assert.
Proof. intros c m l s o e n t R RD. exact (download_assert c m l s o e R RD n t). Qed.
Print Assumptions C30_download_refuted.

(** The MTA is 0 after CONNECT. *)
Example C30_case :
  let s := demo_st cfg_eth env_yes [ORecv [0xFF; 0]] in
  reachable cfg_eth mem0 (map (pair env_yes) [ORecv [0xFF; 0]]) s (demo_out cfg_eth env_yes [ORecv [0xFF; 0]]) /\ ready s /\ ~ programming s /\
  c_opt cfg_eth 0xF5 = true /\ c_opt cfg_eth 0xF4 = true /\ c_cal cfg_eth = true /\ c_buf_addr cfg_eth + 2 < 2 ^ 32 /\
  granted cfg_eth env_yes (s_mext s) (s_maddr s) 0 false false /\ granted cfg_eth env_yes (s_mext s) (s_maddr s) 3 true false /\
  target cfg_eth env_yes (s_mext s) (s_maddr s) = 0 /\
  breaks cfg_eth env_yes [0xF5; 0] s Assert /\ breaks cfg_eth env_yes [0xF0; 3; 1; 2; 3] s Assert.
Proof.
  cbv zeta. split; [apply eth_at; vm_compute; reflexivity|].
  facts. vm_compute. reflexivity.
Qed.

(** ** C31 A response depends only on the received command: if the frame is complete *)

(** With a frame that contains the whole command the outcome is the same whatever
    the receive buffer held before. *)
Theorem C31_complete : forall c m l s o e f b,
  reachable c m l s o -> key_local e -> complete c f -> nth 0 f 0 < 256 ->
  lenN f <= c_ctobuf c -> lenN b = lenN (s_in s) ->
  same_but_rx (step c e (ORecv f) s) (step c e (ORecv f) (set_s_in b s)).
Proof. exact complete_thm. Qed.
Print Assumptions C31_complete.

Example C31_case :
  let s := demo_st cfg_eth env_yes ex_mta in
  reachable cfg_eth mem0 (map (pair env_yes) ex_mta) s (demo_out cfg_eth env_yes ex_mta) /\ key_local env_yes /\
  complete cfg_eth [0xF0; 3; 1; 2; 3] /\ complete cfg_eth [0xF7; 1; 0x42] /\ complete cfg_eth [0xFD] /\ ~ complete cfg_eth [0xF5].
Proof.
  cbv zeta. split; [apply eth_at; vm_compute; reflexivity|]. split.
  { intros r n k k' H. cbn [e_unlock env_yes]. destruct (N.leb_spec 1 n) as [Hn|]; [|reflexivity]. cbn [andb].
    destruct (N.to_nat n) eqn:E; [lia|]. destruct k, k'; cbn [firstn] in H; congruence. }
  repeat (split; [vm_compute; split; congruence|]). vm_compute. intros (_ & H). congruence.
Qed.

(** Two histories that differ in a padding byte of GET_STATUS and lead to the
    same state; UPLOAD without its length then returns 1 byte or 2. *)
Theorem C31_refuted : exists l1 l2 s1 s2 o1 o2 f s1' s2' o1' o2',
  reachable cfg_eth mem0 l1 s1 o1 /\ reachable cfg_eth mem0 l2 s2 o2 /\ s2 = set_s_in (s_in s2) s1 /\
  step cfg_eth env_yes (ORecv f) s1 = Ok (s1', o1') /\ step cfg_eth env_yes (ORecv f) s2 = Ok (s2', o2') /\
  map p_data o1' = [[0xFF; 0]] /\ map p_data o2' = [[0xFF; 0; 1]].
Proof. exact stale_witness. Qed.
Print Assumptions C31_refuted.
