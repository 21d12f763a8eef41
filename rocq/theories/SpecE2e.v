(** Vocabulary of the end-to-end properties: what a master sends to set up a
    measurement, and what it expects back (XCP part 2, dynamic DAQ lists). *)
From Coq Require Import NArith List Bool.
From Verif Require Import Base Config State Core Spec SpecMem SpecDaq.
Import ListNotations.
Open Scope N_scope.

(** A multi-byte field of a command in the byte order announced by CONNECT. *)
Definition coded (c : cfg) (k : nat) (v : N) : list N := if c_motorola c then rev (le_bytes k v) else le_bytes k v.

(** Numbers the elements of a list from [i] on. *)
Fixpoint from {A} (i : N) (l : list A) : list (N * A) :=
  match l with [] => [] | x :: t => (i, x) :: from (i + 1) t end.

(** A dialogue: commands with the expected responses. *)
Definition dialogue := list (list N * list N).
Definition ok (f : list N) : list N * list N := (f, [0xFF]).

(** FREE_DAQ, ALLOC_DAQ, ALLOC_ODT for every list, ALLOC_ODT_ENTRY for every ODT. *)
Definition allocate (c : cfg) (t : tree) : dialogue :=
  [ok [0xD6]; ok ([0xD5; 0] ++ coded c 2 (lenN t))] ++
  map (fun x => ok ([0xD4; 0] ++ coded c 2 (fst x) ++ [lenN (snd x)])) (from 0 t) ++
  flat_map (fun x => map (fun y => ok ([0xD3; 0] ++ coded c 2 (fst x) ++ [fst y; lenN (snd y)])) (from 0 (snd x))) (from 0 t).

(** SET_DAQ_PTR to the first entry of an ODT, WRITE_DAQ for every entry. *)
Definition write_odt (c : cfg) (l o : N) (es : list (N * N)) : dialogue :=
  match es with
  | [] => []
  | _ => ok ([0xE2; 0] ++ coded c 2 l ++ [o; 0]) :: map (fun x => ok ([0xE1; 0xFF; snd x; 0] ++ coded c 4 (fst x))) es
  end.
Definition fill (c : cfg) (t : tree) : dialogue :=
  flat_map (fun x => flat_map (fun y => write_odt c (fst x) (fst y) (snd y)) (from 0 (snd x))) (from 0 t).

(** SET_DAQ_LIST_MODE for every (event, list), START_STOP_DAQ_LIST in mode
    "select", which tells the identifier of the first ODT, START_STOP_SYNCH. *)
Definition start (c : cfg) (t : tree) (mode : N) (asg : list (N * N)) : dialogue :=
  map (fun x => ok ([0xE0; mode] ++ coded c 2 (snd x) ++ coded c 2 (fst x) ++ [1; 0])) asg ++
  map (fun x => ([0xDE; 2] ++ coded c 2 (snd x), [0xFF; odts_before t (snd x) mod 256; 0; 0; 0; 0; 0; 0])) asg ++
  [ok [0xDD; 1]].

(** Executing the operations [l]: the master sends the commands of [d], each of
    them in some environment. *)
Definition performs (c : cfg) (d : dialogue) (l : list (env * op)) : Prop :=
  map snd l = map (fun x => ORecv (fst x)) d /\ Forall (fun x => wf_env c (fst x)) l.
(** The responses are the expected ones, one for every command. *)
Definition as_expected (c : cfg) (d : dialogue) (o : list pkt) : Prop :=
  Forall2 (fun x p => p_dto p = false /\ p_data p = padded c (snd x)) d o.

(** The configuration can be expressed in commands and fits in the pool. *)
Definition tree_ok (c : cfg) (t : tree) : Prop :=
  lenN t + lenN (concat t) + lenN (concat (concat t)) <= c_max_ent c /\
  Forall (fun os => lenN os < 256 /\ Forall (fun es => lenN es < 256 /\ Forall (fun x => fst x < 2 ^ 32 /\ snd x < 256) es) os) t.
(** The commands for dynamic DAQ lists are compiled in. *)
Definition dynamic (c : cfg) : Prop := forall k, In k [0xD6; 0xD5; 0xD4; 0xD3] -> c_opt c k = true.
(** Every event at most once, existing events and lists. *)
Definition asg_ok (c : cfg) (t : tree) (asg : list (N * N)) : Prop :=
  NoDup (map fst asg) /\ Forall (fun x => fst x < c_nevents c /\ snd x < lenN t /\ snd x < 256) asg.

(** Frames that the master expects for a series of events (environment, event)
    of the assignment [asg], with memory contents [m]. *)
Inductive expected (c : cfg) (m : mem) (t : tree) (stamped : bool) (asg : list (N * N)) : list (env * N) -> list (list N) -> Prop :=
| ex_nil : expected c m t stamped asg [] []
| ex_cons : forall e ev l os es fs, let ts := if stamped then stamp c (e_timer e) else [] in
    wf_env c e -> In (ev, l) asg -> getN t l = Some os -> sampleable c ts os -> expected c m t stamped asg es fs ->
    expected c m t stamped asg ((e, ev) :: es) (dtos m ts (odts_before t l) os ++ fs).
