(** Vocabulary for the Ethernet transport layer (C59, C60, C73). *)
From Coq Require Import NArith List Bool.
From Verif Require Import Base Eth SpecSxi.
Import ListNotations.
Open Scope N_scope.

(** The contents may be sent: not empty, and not longer than the smaller buffer. *)
Definition sendable (blen cbuf : N) (f : sframe) : Prop :=
  1 <= lenN (f_data f) /\ lenN (f_data f) <= blen /\ lenN (f_data f) <= cbuf.

(** No portion ends inside a header: [cs] are the portions in which the frames [fs]
    arrive. *)
Definition headers_whole (fs : list sframe) (cs : list (list N)) : Prop :=
  forall fs1 f fs2 cs1 cs2, fs = fs1 ++ f :: fs2 -> cs = cs1 ++ cs2 ->
    let header := lenN (wires fs1) in let cut := lenN (concat cs1) in ~ (header < cut /\ cut < header + 4).

(** Portions are not empty. *)
Definition portions (cs : list (list N)) : Prop := Forall (fun c => c <> []) cs.

(** A frame in two datagrams, header and contents. *)
Definition apart (f : sframe) : list piece := [Data (takeN 4 (wire f)); Data (f_data f)].
