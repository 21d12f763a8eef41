(** CAN transport layer (Linux SocketCAN): C71, C75. *)
From Coq Require Import NArith List Bool Lia.
From Verif Require Import Base Config Cfgs State Core Spec SpecMem Demo Can SpecCan ProofsCan.
Import ListNotations.
Open Scope N_scope.

(** ** C71 Acceptance *)

(** Frames with the own identifiers are accepted. *)
Theorem C71_own : forall a b d,
  (std_ident a -> accepted a b (mkCan false false a d) = true /\ accepted b a (mkCan false false a d) = true) /\
  (a < 2 ^ 29 -> accepted (ext_ident a) b (mkCan true false a d) = true /\ accepted b (ext_ident a) (mkCan true false a d) = true).
Proof. exact own_accepted. Qed.
Print Assumptions C71_own.

(** With standard identifiers exactly those frames are accepted whose low eleven identifier bits match. *)
Theorem C71_standard : forall a b f, std_ident a -> std_ident b ->
  accepted a b f = (n_ident f mod 2 ^ 11 =? a) || (n_ident f mod 2 ^ 11 =? b).
Proof. exact std_exact. Qed.
Print Assumptions C71_standard.

(** The claim fails: a frame with an extended identifier, or a remote frame, is accepted as well
    (for every pair of standard identifiers there are 2^18 such extended ones) *)
Theorem C71_standard_refuted : forall a b h d, std_ident a -> std_ident b -> h < 2 ^ 18 ->
  accepted a b (mkCan true false (h * 2 ^ 11 + a) d) = true /\ accepted a b (mkCan false true a d) = true.
Proof. exact std_others. Qed.
Print Assumptions C71_standard_refuted.

(** and if one of the two is an extended identifier, then every frame with any extended identifier is accepted. *)
Theorem C71_extended_refuted : forall a b f, a < 2 ^ 29 -> n_ext f = true ->
  accepted (ext_ident a) b f = true /\ accepted b (ext_ident a) f = true.
Proof. exact ext_all. Qed.
Print Assumptions C71_extended_refuted.

Example C71_case :
  map (accepted 0x300 0x222) [mkCan false false 0x300 []; mkCan false false 0x301 []; mkCan true false 0x18DAFB00 []; mkCan true false 0x18DAFB01 []; mkCan false true 0x222 []]
  = [true; false; true; false; true] /\
  map (accepted (ext_ident 0x18DA1234) 0x222) [mkCan true false 0x18DA1234 []; mkCan true false 7 []; mkCan false false 7 []; mkCan false false 0x222 []]
  = [true; true; false; true].
Proof. vm_compute. split; reflexivity. Qed.

(** ** C75 Frame buffers *)

(** A frame that fits the receive buffer has the effect of the command in it and no other *)
Theorem C75_receive : forall c e f s, lenN (n_data f) <= c_ctobuf c -> can_receive c e f s = step c e (ORecv (n_data f)) s.
Proof. exact rx_same. Qed.
Print Assumptions C75_receive.

(** and every longer one is written behind the buffer, in every state. *)
Theorem C75_receive_refuted : forall c e f s, c_ctobuf c < lenN (n_data f) -> can_receive c e f s = UB OobBuffer.
Proof. exact rx_overflow. Qed.
Print Assumptions C75_receive_refuted.

(** Whatever a slave sends fits the frame, if MAX_CTO and MAX_DTO do, *)
Theorem C75_send : forall c m l s o p (fd : bool), reachable c m l s o -> In p o -> c_len_size c = 0 -> c_ctr_size c = 0 ->
  c_max_cto c <= frame_room fd -> c_max_dto c <= frame_room fd ->
  exists pad, can_tx fd (wire p) = Ok (p_data p ++ pad) /\ lenN (p_data p ++ pad) = frame_room fd.
Proof. exact tx_fits. Qed.
Print Assumptions C75_send.

(** and nothing else prevents a longer one from being written behind the frame. *)
Theorem C75_send_refuted : forall (fd : bool) buf, frame_room fd < lenN buf -> can_tx fd buf = UB OobBuffer.
Proof. exact tx_overflow. Qed.
Print Assumptions C75_send_refuted.

(** MAX_CTO 8: CONNECT in a classic frame; the same with twelve bytes in an FD frame. *)
Example C75_receive_case :
  match boot cfg_can mem0 with
  | Ok s => match can_receive cfg_can env_yes (mkCan false false 0x300 [0xFF; 0]) s, can_receive cfg_can env_yes (mkCan false false 0x300 (0xFF :: repeat 0 11)) s with
            | Ok (s1, o), UB w => (s_conn s1, map p_data o, w) | _, _ => (false, [], Exit) end
  | _ => (false, [], Exit) end
  = (true, [[0xFF; 21; 0x80; 8; 8; 0; 1; 1]], OobBuffer).
Proof. vm_compute. reflexivity. Qed.

(** MAX_CTO 64, FD switched off: SHORT_UPLOAD of twenty bytes. *)
Example C75_send_case :
  let l := [ORecv [0xFF; 0]; ORecv [0xF4; 20; 0; 0; 0; 0x20; 0; 0]] in
  let o := demo_out cfg_canfd env_yes l in
  reachable cfg_canfd mem0 (map (pair env_yes) l) (demo_st cfg_canfd env_yes l) o /\
  (map (fun p => lenN (wire p)) o, map (fun p => can_tx true (wire p)) (skipn 1 o), map (fun p => can_tx false (wire p)) (skipn 1 o))
  = ([8; 21], [Ok (0xFF :: mem_at mem0 0x2000 20 ++ repeat 0 43)], [UB OobBuffer]).
Proof.
  intros l o. split.
  - apply demo_at; [unfold cfg_canfd; wf_cfg_tac|apply wf_yes; unfold cfg_canfd; wf_cfg_tac|vm_compute; reflexivity].
  - vm_compute. reflexivity.
Qed.
