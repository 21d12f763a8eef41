(** Vocabulary of C143: tables left by repeated allocation. *)
From Coq Require Import NArith List Bool.
From Verif Require Import Base Config State Core Spec SpecMem SpecDaq.
Import ListNotations.
Open Scope N_scope.

(** As [represents_by], but the pool may hold entries that no ODT refers to any more. *)
Record loosely_by (fo : N -> N) (fe : N -> N -> N) (c : cfg) (d : daqst) (t : tree) : Prop := mkLoose {
  k_lists : d_lcnt d = lenN t;
  k_odts : d_ocnt d = lenN (concat t);
  k_count : lenN t + lenN (concat t) <= d_ecnt d;
  k_list : forall l os, getN t l = Some os -> header d l (lenN os) (fo l);
  k_odt : forall l o es, odt_at t l o = Some es -> header d (fo l + o) (lenN es) (fe l o);
  k_entry : forall l o k x, entry_at t l o k = Some x -> holds d (fe l o + k) x;
  k_odt_in : forall l o es, odt_at t l o = Some es -> lenN t <= fo l + o < lenN t + lenN (concat t);
  k_entry_in : forall l o k x, entry_at t l o k = Some x -> lenN t + lenN (concat t) <= fe l o + k < d_ecnt d;
  k_odt_one : forall l o l' o' es es', odt_at t l o = Some es -> odt_at t l' o' = Some es' -> fo l + o = fo l' + o' -> l = l' /\ o = o';
  k_entry_one : forall l o k l' o' k' x x', entry_at t l o k = Some x -> entry_at t l' o' k' = Some x' ->
    fe l o + k = fe l' o' + k' -> l = l' /\ o = o' /\ k = k';
  k_free : forall i, d_ecnt d <= i < c_max_ent c -> body_at d i = Some BZero
}.
Definition loosely (c : cfg) (s : st) (t : tree) : Prop := exists fo fe, loosely_by fo fe c (s_daq s) t.
