(** C64, C66 and C67: full-length frames; truncated list numbers. *)
From Coq Require Import NArith List Bool Lia.
From Verif Require Import Base Config Cfgs Codec State Core Spec Demo SpecDaq SpecDlc ProofsDaqH ProofsDlc.
Import ListNotations.
Open Scope N_scope.

(** ** C64 Short responses carry their own bytes *)

(** Xcp_Send8 sends what it is given, without padding or with frames of eight bytes; ... *)
Theorem C64_exact : forall c len bs s, dlc_ok c -> 8 <= c_max_cto c -> lenN (s_out s) = c_max_cto c -> 1 <= len -> len <= 8 -> lenN bs = 8 ->
  exists s' p, send8 c len bs s = Ok (s', [p]) /\ p_data p = (if c_max_dlc c then bs else takeN len bs).
Proof. exact send8_exact. Qed.
Print Assumptions C64_exact.

(** ... with full-length frames of more than eight bytes (CAN FD) it sends what
    the transmit buffer happens to contain: CONNECT, GET_STATUS and SYNCH, in whatever state, repeat
    the previous frame, ... *)
Theorem C64_refuted : forall c m l s o e k t, reachable c m l s o -> c_max_dlc c = true -> 8 < c_max_cto c -> ready s ->
  In k [0xFF; 0xFD; 0xFC] -> lenN (k :: t) <= c_ctobuf c ->
  exists s' o', step c e (ORecv (k :: t)) s = Ok (s', o') /\ sends o' (s_out s) /\ s_out s' = s_out s.
Proof. exact stale_answers. Qed.
Print Assumptions C64_refuted.

(** ... and the first answer to CONNECT consists of zeros. *)
Theorem C64_connect_refuted : forall c m s e t, wf_cfg c -> wf_mem m -> boot c m = Ok s -> c_max_dlc c = true -> 8 < c_max_cto c -> lenN (0xFF :: t) <= c_ctobuf c ->
  exists s' o', step c e (ORecv (0xFF :: t)) s = Ok (s', o') /\ sends o' (repeat 0 (N.to_nat (c_max_cto c))).
Proof. exact zero_connect. Qed.
Print Assumptions C64_connect_refuted.


(** CAN FD: after SHORT_UPLOAD of three bytes, GET_STATUS is answered with these. *)
Example C64_case :
  let s := demo_st cfg_fd env_yes ex_fd in
  reachable cfg_fd mem0 (map (pair env_yes) ex_fd) s (demo_out cfg_fd env_yes ex_fd) /\ ready s /\ 8 < c_max_cto cfg_fd /\
  match step cfg_fd env_yes (ORecv [0xFD]) s with Ok (_, [p]) => firstn 8 (p_data p) | _ => [] end = [0xFF; 0x42; 0x43; 0x44; 0; 0; 0; 0].
Proof.
  cbv zeta. split; [apply demo_at; [exact wf_fd|apply wf_yes; exact wf_fd|vm_compute; reflexivity]|].
  split; [split; vm_compute; reflexivity|]. split; vm_compute; reflexivity.
Qed.

(** ** C66 Numbers of DAQ lists *)

(** In builds with pools of less than 256 entities the number of ALLOC_DAQ is taken modulo 256:
    the command is answered positively, but other lists exist than were asked for.
    (Numbers that fit: C32.) *)
Theorem C66_refuted : forall c m l s o e t r a b tl, let f := 0xD5 :: r :: a :: b :: tl in let n := field c [a; b] in
  reachable c m l s o -> ready s -> dlc_ok c -> daq_open c s -> c_max_ent c < 256 -> represents c s t -> bytes f -> lenN f <= c_ctobuf c -> c_opt c 0xD5 = true ->
  (d_alloc (s_daq s) = AFree \/ d_alloc (s_daq s) = ADaq) -> 256 <= n -> d_ecnt (s_daq s) + n mod 256 <= c_max_ent c ->
  exists d, answers c e f s [0xFF] (with_daq d s) /\ represents c (with_daq d s) (t ++ repeat [] (N.to_nat (n mod 256))).
Proof. intros c m l s o e t r a b tl f n R RD D Op Sm Rp B L O A _ Fit. exact (alloc_trunc c m l s o e R RD D Op (N.lt_trans _ 256 65536 Sm eq_refl) t r a b tl Sm Rp B L O A Fit). Qed.
Print Assumptions C66_refuted.

(** 258 lists: two are allocated. *)
Example C66_case :
  let s := demo_st cfg_can env_yes ex_free in
  reachable cfg_can mem0 (map (pair env_yes) ex_free) s (demo_out cfg_can env_yes ex_free) /\ ready s /\ dlc_ok cfg_can /\ c_max_ent cfg_can < 256 /\
  d_alloc (s_daq s) = AFree /\ field cfg_can [2; 1] = 258 /\
  match step cfg_can env_yes (ORecv [0xD5; 0; 2; 1]) s with Ok (s', [p]) => (p_data p, d_lcnt (s_daq s'), d_ecnt (s_daq s')) | _ => ([], 0, 0) end = ([0xFF], 2, 2).
Proof.
  cbv zeta. split; [apply can_at; vm_compute; reflexivity|]. split; [split; vm_compute; reflexivity|]. split; [discriminate|].
  repeat split; vm_compute; reflexivity.
Qed.

(** ** C67 Padding *)

(** A frame of full length is filled up with what the previous one contained. *)
Theorem C67_refuted : forall c m l s o e a info1 b info2, reachable c m l s o -> c_ev_api c = true -> c_max_dlc c = true ->
  a < 256 -> b < 256 -> lenN info1 = c_max_cto c - 2 -> lenN info2 <= c_max_cto c - 2 -> c_max_cto c <= 256 ->
  exists s' p1 p2, run c [(e, OEvent a info1); (e, OEvent b info2)] s = Ok (s', [p1; p2]) /\
    p_data p1 = [0xFD; a] ++ info1 /\ p_data p2 = [0xFD; b] ++ info2 ++ dropN (lenN info2) info1.
Proof. exact event_leak. Qed.
Print Assumptions C67_refuted.

(** Uploaded memory shows up in an event. *)
Example C67_case :
  let s := demo_st cfg_dlc env_yes ex_fd in
  reachable cfg_dlc mem0 (map (pair env_yes) ex_fd) s (demo_out cfg_dlc env_yes ex_fd) /\ c_ev_api cfg_dlc = true /\ c_max_cto cfg_dlc = 8 /\
  match step cfg_dlc env_yes (OEvent 5 []) s with Ok (_, [p]) => p_data p | _ => [] end = [0xFD; 5; 0x43; 0x44; 8; 0; 1; 1].
Proof.
  cbv zeta. split; [apply demo_at; [exact wf_dlc8|apply wf_yes; exact wf_dlc8|vm_compute; reflexivity]|]. repeat split; vm_compute; reflexivity.
Qed.
