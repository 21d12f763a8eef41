(** C85: DOWNLOAD_MAX. *)
From Coq Require Import NArith List Bool Lia.
From Verif Require Import Base Config Cfgs Codec State Core Spec Demo SpecMem ProofsWrite.
Import ListNotations.
Open Scope N_scope.

(** ** C85 DOWNLOAD_MAX writes exactly the sent bytes *)

(** All MAX_CTO - 1 data bytes, from the MTA on; the MTA advances past them. *)
Theorem C85_stores : forall c m l s o e bs t, let n := lenN bs in let f := 0xEE :: bs ++ t in let b := target c e (s_mext s) (s_maddr s) in
  reachable c m l s o -> ready s -> dlc_ok c -> c_cal c = true -> c_opt c 0xEE = true -> ~ programming s -> lenN f <= c_ctobuf c -> c_buf_addr c + 1 < 2 ^ 32 ->
  n = c_max_cto c - 1 -> b <> 0 -> in_space c b n ->
  stores c e f s b bs (advanced c n s) (fun o => sends o (padded c [0xFF])).
Proof. intros c m l s o e bs t n f b R RD. exact (download_max_thm c m l s o e R RD bs t). Qed.
Print Assumptions C85_stores.

Example C85_case : let l := [ORecv [0xFF; 0]; ORecv [0xF6; 0; 0; 0; 0; 0x20; 0; 0]] in let s := demo_st cfg_can env_yes l in let bs := [1; 2; 3; 4; 5; 6; 7] in
  reachable cfg_can mem0 (map (pair env_yes) l) s (demo_out cfg_can env_yes l) /\ ready s /\ dlc_ok cfg_can /\ c_cal cfg_can = true /\ c_opt cfg_can 0xEE = true /\ ~ programming s /\
  c_buf_addr cfg_can + 1 < 2 ^ 32 /\ lenN bs = c_max_cto cfg_can - 1 /\ target cfg_can env_yes (s_mext s) (s_maddr s) = 0x2000 /\ in_space cfg_can 0x2000 7 /\
  match step cfg_can env_yes (ORecv (0xEE :: bs)) s with Ok (s', o) => (map p_data o, mem_at (s_mem s') 0x1FFF 9, s_maddr s') | UB _ => ([], [], 0) end
  = ([[0xFF]], [mem0 0x1FFF] ++ bs ++ [mem0 0x2007], 0x2007).
Proof.
  cbv zeta. split; [apply can_at; vm_compute; reflexivity|]. split; [vm_compute; split; reflexivity|]. split; [intro H; discriminate H|].
  split; [reflexivity|]. split; [reflexivity|]. split; [vm_compute; discriminate|]. split; [reflexivity|]. split; [reflexivity|]. split; [vm_compute; reflexivity|].
  split; [unfold in_space; vm_compute; discriminate|]. vm_compute. reflexivity.
Qed.
