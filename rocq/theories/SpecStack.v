(** Vocabulary for the reference slave behind a transport layer (C120, C121). *)
From Coq Require Import NArith List Bool.
From Verif Require Import Base Config State Core Spec SpecFrames SpecSxi SpecTcp SpecRef.
Import ListNotations.
Open Scope N_scope.

(** Requests that are commands of the master. *)
Definition command (q : req) : Prop := match q with QEvent _ | QMain | QVariables _ _ | QNotice _ _ | QService _ _ => False | _ => True end.

(** Commands, the first of them in environment [E k]. *)
Fixpoint timed (E : N -> env) (k : N) (qs : list req) : list (env * req) :=
  match qs with [] => [] | q :: t => (E k, q) :: timed E (k + 1) t end.

(** Peers talk to the reference slave one after the other; the replies go to the
    peer that asks. *)
Inductive talks (c : cfg) (E : N -> env) : N -> ref -> list (N * list req) -> list (N * reply) -> ref -> Prop :=
| tk_nil : forall k a, talks c E k a [] [] a
| tk_cons : forall k a p qs rs a1 t os a2, ref_run c a (timed E k qs) rs a1 -> talks c E (k + lenN qs) a1 t os a2 ->
    talks c E k a ((p, qs) :: t) (map (pair p) rs ++ os) a2.

(** The frames of a visit carry the commands. *)
Definition asks (c : cfg) (v : visit) (w : N * list req) : Prop :=
  fst v = fst w /\ said v = map (frame c) (snd w) /\ Forall command (snd w).
(** The frame [x] goes to the right peer and shows the reply. *)
Definition gets (c : cfg) (r : N * reply) (x : N * pkt) : Prop := fst r = fst x /\ shows c (snd r) (snd x).
(** What the bytes [bs] of a frame say. *)
Definition reads (c : cfg) (r : reply) (bs : list N) : Prop :=
  match r with
  | Response b => bs = padded c b
  | Data b => exists pad, bs = b ++ pad /\ lenN pad = if c_max_dlc c then c_max_cto c - lenN b else 0
  | Sample b => bs = b
  end.
(** The replies to peer [p]. *)
Definition replies_to (p : N) (os : list (N * reply)) : list reply := map snd (filter (fun x => fst x =? p) os).
