(** C97 to C99: the Kvaser transport layer. *)
From Coq Require Import NArith List Bool.
From Verif Require Import Base Config State Core Spec Demo Kv SpecKv SpecCan ProofsKv.
Import ListNotations.
Open Scope N_scope.

(** ** C97 The acceptance filter *)

(** It lets pass exactly the identifiers that agree with both configured ones wherever these
    agree; identifiers of the other kind are not filtered. *)
Theorem C97_filter : forall x0 x1 i0 i1 x i, in_range x0 i0 -> in_range x1 i1 -> in_range x i ->
  kv_passes (kv_filter (configured x0 i0) (configured x1 i1)) x i = true <->
  (x = x0 || x1 -> agrees (if x then 29 else 11) i0 i1 i).
Proof. exact filter_thm. Qed.
Print Assumptions C97_filter.

(** So the slave hears all frames meant for it. *)
Theorem C97_own : forall x0 x1 i0 i1, in_range x0 i0 -> in_range x1 i1 ->
  let p := kv_passes (kv_filter (configured x0 i0) (configured x1 i1)) in p x0 i0 = true /\ p x1 i1 = true.
Proof. exact filter_own. Qed.
Print Assumptions C97_own.

Example C97_case : in_range false 0x300 /\ in_range false 0x302 /\ in_range true 0x1234567 /\
  map (kv_passes (kv_filter (configured false 0x300) (configured false 0x302)) false) [0x300; 0x301; 0x302; 0x303; 0x700] = [true; false; true; false; false] /\
  map (kv_passes (kv_filter (configured false 0x300) (configured true 0x1234567)) true) [0x300; 0x1234567; 0x1000000] = [true; true; false].
Proof. vm_compute. repeat split. Qed.

(** ** C98 Only data frames addressed to the slave are executed *)

(** True of undisturbed data frames: those with the configured identifier are executed, *)
Theorem C98_own : forall c xa a b e d s, in_range xa a -> 1 <= lenN d <= c_ctobuf c -> dlc_good c d ->
  kv_notify c (configured xa a) b e (data_frame xa a d) s = step c e (ORecv d) s.
Proof. exact own_frames. Qed.
Print Assumptions C98_own.
(** and all others, empty ones, and those without the demanded length are not. *)
Theorem C98_others : forall c xa a b e x i d s, in_range xa a -> lenN d <= c_ctobuf c -> (x, i) <> (xa, a) \/ lenN d = 0 \/ ~ dlc_good c d ->
  exists s', kv_notify c (configured xa a) b e (data_frame x i d) s = Ok (s', []) /\ same_but_input s s'.
Proof. exact other_frames. Qed.
Print Assumptions C98_others.

(** False of others.  A frame is taken as one with extended identifier if the flags are
    exactly "extended"; a remote frame executes bytes received earlier. *)
Theorem C98_flags_refuted : forall c xa a b e fl d s, in_range xa a -> 1 <= lenN d <= c_ctobuf c -> c_max_dlc c = false -> lenN (s_in s) = c_ctobuf c ->
  (xa = true <-> fl mod 65536 = 4) ->
  kv_notify c (configured xa a) b e (mkKv a fl d) s = step c e (ORecv (if N.testbit fl 0 then takeN (lenN d) (s_in s) else d)) s.
Proof. exact any_flags. Qed.
Print Assumptions C98_flags_refuted.
(** A frame with the configured extended identifier is ignored if any further flag is set,
    such as the one for an overrun. *)
Theorem C98_lost_refuted : forall c a b e fl d s, in_range true a -> lenN d <= c_ctobuf c -> fl mod 65536 <> 4 ->
  exists s', kv_notify c (configured true a) b e (mkKv a fl d) s = Ok (s', []) /\ same_but_input s s'.
Proof. exact lost_flags. Qed.
Print Assumptions C98_lost_refuted.

(** Identifier 0x300 (standard): CONNECT (flags 2), then a remote frame (3), a remote frame
    with the extended identifier 0x300 (5), and a data frame with it after an overrun (0x204):
    four answers; data frames with other identifiers: none.
    Identifier 0x300 (extended): an overrun (0x204) loses CONNECT. *)
Example C98_case : in_range false 0x300 /\ in_range true 0x300 /\ c_max_dlc cfg_can = false /\
  match boot cfg_can mem0 with
  | Ok s => lenN (s_in s) = c_ctobuf cfg_can /\
      map (fun p => hd 0 (p_data p)) (kv_frames cfg_can (configured false 0x300) [mkKv 0x300 2 [0xFF; 0]; mkKv 0x300 3 [0; 0]; mkKv 0x300 5 [0; 0]; mkKv 0x300 0x204 [0xFD]] s) = [0xFF; 0xFF; 0xFF; 0xFF] /\
      kv_frames cfg_can (configured false 0x300) [data_frame true 0x300 [0xFF; 0]; data_frame false 0x301 [0xFF; 0]; data_frame false 0x300 []] s = [] /\
      kv_frames cfg_can (configured true 0x300) [mkKv 0x300 0x204 [0xFF; 0]] s = [] /\
      lenN (kv_frames cfg_can (configured true 0x300) [mkKv 0x300 4 [0xFF; 0]] s) = 1
  | UB _ => False end.
Proof. vm_compute. repeat split. Qed.

(** ** C99 Every frame of the slave is transmitted *)

(** True if MAX_CTO and MAX_DTO are at most 8; then the lock is free afterwards. *)
Theorem C99_fits : forall c m l s o xo i, reachable c m l s o -> in_range xo i -> c_len_size c = 0 -> c_ctr_size c = 0 -> c_max_cto c <= 8 -> c_max_dto c <= 8 ->
  fold_left (fun x b => kv_send (configured xo i) b x) (map wire o) ([], 0) = (map (fun p => (i, xo, p_data p)) o, 0).
Proof. exact fits_thm. Qed.
Print Assumptions C99_fits.

(** Otherwise exactly the longer frames are lost, and each of them leaves the lock held once more
    forever. *)
Theorem C99_refuted : forall xo o l, in_range xo o -> fold_left (fun x b => kv_send (configured xo o) b x) l ([], 0) =
  (map (fun b => (o, xo, b)) (filter (fun b => negb (long b)) l), lenN (filter long l)).
Proof. exact send_thm. Qed.
Print Assumptions C99_refuted.

(** CONNECT and SHORT_UPLOAD of five bytes with MAX_CTO 8; of twenty bytes with MAX_CTO 64. *)
Example C99_case :
  let l := [ORecv [0xFF; 0]; ORecv [0xF4; 5; 0; 0; 0; 0x20; 0; 0]] in
  let l2 := [ORecv [0xFF; 0]; ORecv [0xF4; 20; 0; 0; 0; 0x20; 0; 0]; ORecv [0xFD]] in
  let send := fold_left (fun x b => kv_send (configured true 0x300) b x) in
  reachable cfg_can mem0 (map (pair env_yes) l) (demo_st cfg_can env_yes l) (demo_out cfg_can env_yes l) /\
  c_len_size cfg_can = 0 /\ c_ctr_size cfg_can = 0 /\ c_max_cto cfg_can = 8 /\ c_max_dto cfg_can = 8 /\
  (map (fun x => lenN (snd x)) (fst (send (map wire (demo_out cfg_can env_yes l)) ([], 0))), snd (send (map wire (demo_out cfg_can env_yes l)) ([], 0))) = ([8; 6], 0) /\
  (map (fun x => lenN (snd x)) (fst (send (map wire (demo_out cfg_canfd env_yes l2)) ([], 0))), snd (send (map wire (demo_out cfg_canfd env_yes l2)) ([], 0))) = ([8; 6], 1).
Proof. cbv zeta. split; [apply can_at; vm_compute; reflexivity|]. vm_compute. repeat split. Qed.
