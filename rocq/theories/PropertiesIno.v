(** C91 - C93: reception by interrupt (Arduino CAN). *)
From Coq Require Import NArith List Bool Lia.
From Verif Require Import Base Config Cfgs Codec State Core Spec Demo Can Ino SpecIno ProofsIno.
Import ListNotations.
Open Scope N_scope.

(** ** C91 Paced frames are executed once each, in order *)

(** If the main loop makes length + 4 steps between a frame and the next interrupt or
    call, then the slave behaves as the one that receives the frames one by one. *)
Theorem C91_paced : forall c ws x, resting x -> Forall (paced c) ws ->
  ends c (irun c (flat_map as_run ws) x) (map as_op ws) (i_st x).
Proof. exact paced_thm. Qed.
Print Assumptions C91_paced.

(** CONNECT, an event, SET_MTA, DOWNLOAD. *)
Example C91_case : match boot cfg_can mem0 with
  | Ok s => resting (iboot s) /\ Forall (paced cfg_can) c91_work /\
      match irun cfg_can (flat_map as_run c91_work) (iboot s) with
      | Ok (x, o) => map (fun p => hd 0 (p_data p)) o = [0xFF; 0xFF; 0xFF] /\ s_mem (i_st x) 0x1000 = 0x55 | UB _ => False end
  | UB _ => False end.
Proof. vm_compute. repeat split; try congruence. repeat constructor; congruence. Qed.

(** ** C92 No frame is lost, repeated or mixed with another *)

(** What really happens to a frame if the next one arrives after [j] steps of the main
    loop: for [j] = 0 and 1 it is lost; for [j] = 2 it is lost and the second one executed
    twice; up to [j] = length + 2 a mixture is executed; from there on both are executed
    correctly. *)
Theorem C92_refuted : forall c e f1 f2 j k x, resting x -> fine c f1 -> fine c f2 ->
  let d1 := n_data f1 in let d2 := n_data f2 in
  j <= lenN d1 + 3 -> lenN d1 + 2 * lenN d2 + 8 <= k ->
  ends c (irun c ((e, IFrame f1) :: steps j e ++ (e, IFrame f2) :: steps k e) x) (map (fun d => (e, ORecv d)) (executed d1 d2 j)) (i_st x).
Proof. exact race_thm. Qed.
Print Assumptions C92_refuted.

(** DOWNLOAD of 0x55 and UPLOAD of three bytes become DOWNLOAD of three bytes. *)
Example C92_case : executed [0xF0; 1; 0x55] [0xF5; 3] 0 = [[0xF5; 3]] /\ executed [0xF0; 1; 0x55] [0xF5; 3] 2 = [[0xF5; 3]; [0xF5; 3]] /\
  executed [0xF0; 1; 0x55] [0xF5; 3] 4 = [[0xF0; 3; 0x55]; [0xF5; 3]] /\ executed [0xF0; 1; 0x55] [0xF5; 3] 6 = [[0xF0; 1; 0x55]; [0xF5; 3]] /\
  fine cfg_can (mkCan false false 0x300 [0xF0; 1; 0x55]) /\ fine cfg_can (mkCan false false 0x300 [0xF5; 3]) /\
  match boot cfg_can mem0 with Ok s => resting (iboot s) | UB _ => False end.
Proof. vm_compute. repeat split; congruence. Qed.

(** ** C93 Only data frames addressed to the slave are executed *)

(** The identifier does not matter at all. *)
Theorem C93_ident_refuted : forall c e b i d k x, resting x -> 1 <= lenN d <= 64 -> lenN d <= c_ctobuf c -> lenN d + 4 <= k ->
  ends c (irun c ((e, IFrame (mkCan b false i d)) :: steps k e) x) [(e, ORecv d)] (i_st x).
Proof. exact any_ident. Qed.
Print Assumptions C93_ident_refuted.
(** A remote frame executes what is in the buffer; so the last command again, if it
    names the same length. *)
Theorem C93_remote_refuted : forall c e b i z k x, resting x -> 1 <= lenN z <= 64 -> lenN z <= c_ctobuf c -> lenN z + 4 <= k ->
  ends c (irun c ((e, IFrame (mkCan b true i z)) :: steps k e) x) [(e, ORecv (takeN (lenN z) (i_buf x)))] (i_st x).
Proof. exact remote_any. Qed.
Print Assumptions C93_remote_refuted.
Theorem C93_repeat_refuted : forall c e f b i z k1 k2 x, resting x -> fine c f -> lenN z = lenN (n_data f) ->
  lenN (n_data f) + 4 <= k1 -> lenN (n_data f) + 4 <= k2 ->
  ends c (irun c ((e, IFrame f) :: steps k1 e ++ (e, IFrame (mkCan b true i z)) :: steps k2 e) x)
    [(e, ORecv (n_data f)); (e, ORecv (n_data f))] (i_st x).
Proof. exact remote_again. Qed.
Print Assumptions C93_repeat_refuted.
(** A frame without data fails an assertion. *)
Theorem C93_empty_refuted : forall c e f k x, resting x -> n_data f = [] -> 3 <= k -> irun c ((e, IFrame f) :: steps k e) x = UB Assert.
Proof. exact empty_frame. Qed.
Print Assumptions C93_empty_refuted.
(** A CAN FD frame longer than MAX_CTO is written behind the receive buffer. *)
Theorem C93_long_refuted : forall c e f k x, resting x -> n_rtr f = false -> c_ctobuf c < lenN (n_data f) -> 1 <= c_ctobuf c ->
  lenN (n_data f) <= 64 -> c_ctobuf c + 4 <= k -> irun c ((e, IFrame f) :: steps k e) x = UB OobBuffer.
Proof. exact long_frame. Qed.
Print Assumptions C93_long_refuted.

(** CONNECT with a foreign identifier, then a remote frame of two bytes: connected twice. *)
Example C93_case : match boot cfg_can mem0 with
  | Ok s => resting (iboot s) /\ fine cfg_can (mkCan true false 0x1234567 [0xFF; 0]) /\
      match irun cfg_can ((env_yes, IFrame (mkCan true false 0x1234567 [0xFF; 0])) :: steps 6 env_yes ++
                          (env_yes, IFrame (mkCan false true 5 [0; 0])) :: steps 6 env_yes) (iboot s) with
      | Ok (x, o) => s_conn (i_st x) = true /\ lenN o = 2 | UB _ => False end /\
      c_ctobuf cfg_can < lenN (repeat 0 12)
  | UB _ => False end.
Proof. vm_compute. repeat split; congruence. Qed.
