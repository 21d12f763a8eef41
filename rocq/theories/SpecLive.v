(** Vocabulary for connections that break (C122, C123). *)
From Coq Require Import NArith List Bool.
From Verif Require Import Base Config State Core Spec SpecFrames Eth SpecSxi SpecEth Net Tcp SpecTcp Live.
Import ListNotations.
Open Scope N_scope.

(** Ways to leave: the peer sends the frames of [v], in portions that do not end inside of a header (of a complete frame), and then
    closes the connection; or the connection is reset; or the peer closes it, or disappears, in the middle of the header of another
    frame, or in the middle of its contents (recv() keeps reporting the end, hence twice). *)
Inductive leaves (blen cbuf : N) (v : visit) : conn -> Prop :=
| leaves_close cs : carries blen cbuf v cs -> leaves blen cbuf v (mkConn (fst v) (map Data cs ++ [Eof]))
| leaves_reset cs : carries blen cbuf v cs -> leaves blen cbuf v (mkConn (fst v) (map Data cs ++ [Failed; Eof]))
| leaves_header cs y : Forall (sendable blen cbuf) (snd v) -> portions cs -> concat cs = wires (snd v) ++ y -> lenN y < 4 -> headers_whole (snd v) cs ->
    leaves blen cbuf v (mkConn (fst v) (map Data cs ++ [Eof]))
| leaves_data cs g j : Forall (sendable blen cbuf) (snd v) -> sendable blen cbuf g -> 4 <= j -> j < lenN (wire g) -> portions cs ->
    concat cs = wires (snd v) ++ takeN j (wire g) -> headers_whole (snd v ++ [g]) cs ->
    leaves blen cbuf v (mkConn (fst v) (map Data cs ++ [Eof; Eof])).

(** The first [i] frames are taken, the next one is not. *)
Definition fails_at (i : nat) (r : shipped) (t : list shipped) : list shipped := repeat Taken i ++ r :: t.
