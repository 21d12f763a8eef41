(** Vocabulary of definedness for the build with predefined DAQ lists. *)
From Coq Require Import NArith List Bool.
From Verif Require Import Base Config State Core Spec SpecMem SpecDaq SpecInfo SpecSafe Predef SpecPre.
Import ListNotations.
Open Scope N_scope.

(** The operation ends normally. *)
Definition sdefined (c : cfg) (p : predef) (e : env) (x : op) (z : sst) : Prop := exists z' o, sstep c p e x z = Ok (z', o).

(** Commands that are defined whatever their parameters and the state of the
    session.  To those of the other build come SET_DAQ_PTR and the commands to
    allocate lists, which this build does not have. *)
Definition pre_harmless : list N := [0xE2; 0xD5; 0xD4; 0xD3] ++ harmless.
(** Commands that work as in the other build and follow the rules stated there. *)
Definition shared_codes : list N := [0xF8; 0xF5; 0xF4; 0xF3; 0xF0; 0xEF; 0xEE; 0xED; 0xEC].

(** WRITE_DAQ and WRITE_DAQ_MULTIPLE: there is a list. *)
Definition pre_write_rule (c : cfg) (p : predef) (s : st) : Prop := daq_open c s -> ~ measuring s -> count_of p <> 0.
Definition pre_multiple_rule (c : cfg) (p : predef) (s : st) (f : list N) : Prop :=
  daq_open c s -> ~ measuring s -> param s f 1 <> 0 -> param s f 1 * 8 + 2 <= c_max_cto c -> count_of p <> 0.
(** SET_DAQ_LIST_MODE: the event and the list exist. *)
Definition pre_mode_rule (c : cfg) (p : predef) (s : st) (f : list N) : Prop :=
  daq_open c s -> ~ measuring s -> N.land (param s f 1) 3 = 0 -> param s f 6 <= 1 ->
  param2 c s f 4 < lenN (c_events c) /\ list_param c s f < count_of p.
(** START_STOP_DAQ_LIST and GET_DAQ_LIST_INFO: the list exists. *)
Definition pre_select_rule (c : cfg) (p : predef) (s : st) (f : list N) : Prop := daq_open c s -> param s f 1 = 2 -> list_param c s f < count_of p.
Definition pre_info_rule (c : cfg) (p : predef) (s : st) (f : list N) : Prop := daq_open c s -> list_param c s f < count_of p.

(** An event finds entries of a size that fits, and room in the queue. *)
Definition pre_trigger_rule (c : cfg) (e : env) (t : tree) (z : sst) (ev : N) : Prop :=
  measuring (z_st z) -> forall l os, assigned (z_st z) ev l -> getN t l = Some os ->
    sampleable c (list_stamp c e z l) os /\ used (z_st z) + lenN os <= 4.

(** The rules for a command that is executed, an operation and a series of them. *)
Definition pre_command_rule (c : cfg) (p : predef) (e : env) (s : st) (f : list N) (k : N) : Prop :=
  match k with
  | 0xE2 | 0xD5 | 0xD4 | 0xD3 => True
  | 0xE1 => pre_write_rule c p s
  | 0xE0 => pre_mode_rule c p s f
  | 0xDE => pre_select_rule c p s f
  | 0xD8 => c_opt c 0xD8 = true -> pre_info_rule c p s f
  | 0xC7 => c_opt c 0xC7 = true -> pre_multiple_rule c p s f
  | _ => command_rule c e s f k
  end.
Definition pre_rule (c : cfg) (p : predef) (e : env) (t : tree) (z : sst) (x : op) : Prop :=
  match x with
  | ORecv [] => True
  | ORecv (k :: r) => lenN (k :: r) <= c_ctobuf c /\ (ready (z_st z) -> pre_command_rule c p e (z_st z) (k :: r) k)
  | OMain => main_rule c e (z_st z)
  | OTrigger ev => pre_trigger_rule c e t z ev
  | _ => True
  end.
Fixpoint pre_abides (c : cfg) (p : predef) (t : tree) (l : list (env * op)) (z : sst) : Prop :=
  match l with
  | [] => True
  | (e, x) :: r => pre_rule c p e t z x /\ forall z' o, sstep c p e x z = Ok (z', o) -> pre_abides c p t r z'
  end.
