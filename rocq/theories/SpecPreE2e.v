(** Vocabulary of the end-to-end properties of predefined DAQ lists. *)
From Coq Require Import NArith List Bool.
From Verif Require Import Base Config State Core Spec SpecMem SpecDaq SpecE2e.
Import ListNotations.
Open Scope N_scope.

(** What a master sends to start a measurement of predefined lists: SET_DAQ_LIST_MODE
    for every (event, list), where list [k] gets the mode [md k], then
    START_STOP_DAQ_LIST in mode "select", which tells the identifier of the first
    ODT, and START_STOP_SYNCH. *)
Definition start_own (c : cfg) (t : tree) (md : N -> N) (asg : list (N * N)) : dialogue :=
  map (fun x => ok ([0xE0; md (snd x)] ++ coded c 2 (snd x) ++ coded c 2 (fst x) ++ [1; 0])) asg ++
  map (fun x => ([0xDE; 2] ++ coded c 2 (snd x), [0xFF; odts_before t (snd x) mod 256; 0; 0; 0; 0; 0; 0])) asg ++
  [ok [0xDD; 1]].
(** Modes that a master may ask for: neither STIM nor alternating (XCP part 2, 1.6.4.1.2.2). *)
Definition modes_ok (md : N -> N) (asg : list (N * N)) : Prop :=
  Forall (fun x => md (snd x) < 256 /\ N.land (md (snd x)) 3 = 0) asg.

(** Frames that the master expects for a series of events (environment, event): those
    of the list assigned to the event, with a time stamp if that list's mode asks for
    one. *)
Inductive expected_own (c : cfg) (m : mem) (t : tree) (md : N -> N) (asg : list (N * N)) : list (env * N) -> list (list N) -> Prop :=
| eo_nil : expected_own c m t md asg [] []
| eo_cons : forall e ev l os es fs, let ts := if c_ts c && N.testbit (md l) 4 then stamp c (e_timer e) else [] in
    wf_env c e -> In (ev, l) asg -> getN t l = Some os -> sampleable c ts os -> expected_own c m t md asg es fs ->
    expected_own c m t md asg ((e, ev) :: es) (dtos m ts (odts_before t l) os ++ fs).
