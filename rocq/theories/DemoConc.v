(** States and schedules for the examples of PropertiesConc. *)
From Coq Require Import NArith List Bool.
From Verif Require Import Base Config Cfgs Conc Race Ring SpecConc.
Import ListNotations.
Open Scope N_scope.

(** Both buffers are empty, the counter is [n]; [r] bytes of a block are left, read from the
    address [a] of a memory with the content 0, 1, 2, ... *)
Definition sh_at (n r a : N) (act : bool) : sh :=
  mkSh (fun _ => 0) (fun _ _ => 0) n false [] r act a (fun i => i mod 256).

(** The threads take turns after every access. *)
Fixpoint turns (n : nat) : list bool := match n with O => [] | S m => true :: false :: turns m end.

Definition done_b {S} (x : prog S * prog S * S) : bool :=
  match x with (Halt, Halt, _) => true | _ => false end.
Lemma done_ok : forall S (x : prog S * prog S * S), done_b x = true -> finished x.
Proof. intros S [[[|] [|]] s]; cbn; intros H; try discriminate; reflexivity. Qed.
