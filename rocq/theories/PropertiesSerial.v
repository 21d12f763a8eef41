(** C112: a session over a serial line. *)
From Coq Require Import NArith List Bool Lia.
From Verif Require Import Base Config State Core Spec Demo SpecMem Sxi SpecSxi Serial SpecSerial ProofsSerial CasesSerial.
Import ListNotations.
Open Scope N_scope.

(** ** C112 Frames in, commands executed *)

(** Complete commands that arrive byte by byte, among calls that find no byte and operations of the program around,
    are executed each at its last byte, exactly as commands handed over in one piece; what is sent and the state are
    the same. *)
Theorem C112_serial : forall c m l0 s o0 buf fs l more, reachable c m l0 s o0 -> 12 <= lenN buf <= 2 ^ 16 ->
  Forall (fits (lenN buf)) fs -> Forall (fun f => good c (f_data f)) fs ->
  quiet 0 (polls l) -> octets (polls l) ++ more = wires fs -> Forall around (others l) -> Forall key_local (envs l) ->
  same_but_rx (run c (weave 0 fs l) s) (outcome (serial_run c l (sxi_init buf) s)).
Proof. exact serial_thm. Qed.
Print Assumptions C112_serial.

(** With empty frames among them: in place of each, the command before is executed once more. *)
Theorem C112_repeats : forall c m l0 s o0 buf fs l more, reachable c m l0 s o0 -> 12 <= lenN buf <= 2 ^ 16 ->
  Forall (fits (lenN buf)) fs -> Forall (fun f => f_data f = [] \/ good c (f_data f)) fs -> (forall f t, fs = f :: t -> f_data f <> []) ->
  quiet 0 (polls l) -> octets (polls l) ++ more = wires fs -> Forall around (others l) -> Forall key_local (envs l) ->
  same_but_rx (run c (weave_as 0 fs (map f_data (repeated [] fs)) l) s) (outcome (serial_run c l (sxi_init buf) s)).
Proof. exact repeat_thm. Qed.
Print Assumptions C112_repeats.

(** They are not ignored (as they are on Ethernet and CAN): the empty frame after DOWNLOAD writes the data again
    behind the first. *)
Theorem C112_empty_refuted : exists s o0 buf fs l, reachable cfg_sxi mem0 [] s o0 /\ 12 <= lenN buf <= 2 ^ 16 /\
  Forall (fits (lenN buf)) fs /\ Forall (fun f => f_data f = [] \/ good cfg_sxi (f_data f)) fs /\
  quiet 0 (polls l) /\ octets (polls l) = wires fs /\ Forall around (others l) /\ Forall key_local (envs l) /\
  look (run cfg_sxi (weave 0 fs l) s) =
    Some ([0x55; 0x66; 2; 3; 4], [[0xFF; 0x15; 0x80; 8; 8; 0; 1; 1]; [0xFF]; [0xFD; 1; 7]; [0xFF]]) /\
  look (outcome (serial_run cfg_sxi l (sxi_init buf) s)) =
    Some ([0x55; 0x66; 0x55; 0x66; 4], [[0xFF; 0x15; 0x80; 8; 8; 0; 1; 1]; [0xFF]; [0xFD; 1; 7]; [0xFF]; [0xFF]]).
Proof. exact empty_witness. Qed.
Print Assumptions C112_empty_refuted.

Example C112_case :
  let s := demo_st cfg_sxi env_yes [] in let buf := repeat 0 12 in
  reachable cfg_sxi mem0 [] s [] /\ Forall (fits (lenN buf)) dl_frames /\ Forall (fun f => good cfg_sxi (f_data f)) dl_frames /\
  quiet 0 (polls dl_events) /\ octets (polls dl_events) = wires dl_frames /\ Forall around (others dl_events) /\
  Forall key_local (envs dl_events) /\
  map snd (weave 0 dl_frames dl_events) =
    [ORecv [0xFF; 0]; OMain; ORecv [0xF6; 0; 0; 0; 0; 0x10; 0; 0]; OEvent 1 [7]; ORecv [0xF0; 2; 0x55; 0x66]] /\
  look (outcome (serial_run cfg_sxi dl_events (sxi_init buf) s)) =
    Some ([0x55; 0x66; 2; 3; 4], [[0xFF; 0x15; 0x80; 8; 8; 0; 1; 1]; [0xFF]; [0xFD; 1; 7]; [0xFF]]).
Proof. exact serial_case. Qed.
