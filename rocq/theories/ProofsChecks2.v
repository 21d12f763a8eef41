(** Proofs for C158: what the checks redefine. *)
From Coq Require Import ZArith List Bool Lia ZifyBool.
From Verif Require Import Checks SpecChecks ProofsChecks.
Import ListNotations.
Open Scope Z_scope.

Lemma val_if : forall (b : bool) x y m, val (if b then x else y) m = if b then val x m else val y m.
Proof. intros []; reflexivity. Qed.
Lemma if_same : forall (A : Type) (b : bool) (x : A), (if b then x else x) = x.
Proof. intros A []; reflexivity. Qed.

Definition can_env (e : menv) : menv :=
  if val e Layer =? 1 then
    let e1 := if on e SlaveId || on e GetDaqId || on e SetDaqId then def TransportCmd 1 e else e in
    def ChecksumSize 0 (def CounterSize 0 (def LengthSize 0 (if val e CanFd =? 0 then def MaxDto 8 (def MaxCto 8 e1) else e1)))
  else e.
Definition seed_env (e : menv) : menv :=
  if on e GetSeed && on e Unlock then def Protection 1 e else if off e GetSeed && off e Unlock then def Protection 0 e else e.
Definition lists_env' (e : menv) : menv :=
  if val e ConfigType =? 3 then def DynamicLists 0 e
  else if val e ConfigType =? 1 then def DynamicLists 1 e
  else if val e ConfigType =? 0 then def DynamicLists 0 e else e.
Definition off_env (m : macro) (e : menv) : menv := if on e m then def m 0 e else e.
Definition alloc_env (e : menv) : menv :=
  if on e DaqCommands && off e DynamicLists then off_env AllocOdtEntry (off_env AllocOdt (off_env AllocDaq (off_env FreeDaq e))) else e.

Lemma error_if_inv : forall b e e', error_if b e = Some e' -> e' = e.
Proof. intros b e e' H. apply error_if_some in H. tauto. Qed.

Lemma can_is : forall e e', ck_can e = Some e' -> e' = can_env e.
Proof.
  intros e e' H. unfold ck_can in H. unfold can_env. destruct (val e Layer =? 1); [|congruence]. cbv zeta in *.
  set (e1 := if on e SlaveId || on e GetDaqId || on e SetDaqId then _ else _) in *.
  assert (K : val e1 CanFd = val e CanFd) by (unfold e1; rewrite val_if, val_def; cbn [macro_beq]; apply if_same).
  rewrite fd_off, K in H. clearbody e1. apply bind_some in H. destruct H as (x & A & B). inversion B; subst e'.
  destruct (val e CanFd =? 0); [congruence|]. apply bind_some in A. destruct A as (y & A & C).
  apply error_if_inv in A. apply error_if_inv in C. congruence.
Qed.
Lemma seed_is : forall e e', ck_seed e = Some e' -> e' = seed_env e.
Proof.
  intros e e' H. unfold ck_seed in H. unfold seed_env.
  destruct (on e GetSeed && on e Unlock); [congruence|]. destruct (off e GetSeed && off e Unlock); [congruence|].
  destruct (on e GetSeed && off e Unlock); [discriminate|]. destruct (off e GetSeed && on e Unlock); [discriminate|congruence].
Qed.
Lemma lists_is : forall e e', ck_lists e = Some e' -> e' = lists_env' e.
Proof.
  intros e e' H. unfold ck_lists in H. cbv zeta in H. apply bind_some in H. destruct H as (x & A & B).
  apply error_if_inv in A. apply error_if_inv in B. subst. reflexivity.
Qed.
Lemma alloc_is : forall e e', ck_alloc e = Some e' -> e' = alloc_env e.
Proof. intros e e' H. unfold ck_alloc in H. unfold alloc_env. destruct (on e DaqCommands && off e DynamicLists); inversion H; reflexivity. Qed.

Lemma off_env_val : forall m e n, val (off_env m e) n = if macro_beq m n && (val e n =? 1) then 0 else val e n.
Proof.
  intros m e n. unfold off_env. rewrite val_if, val_def. destruct (macro_beq m n) eqn:Q; [|apply if_same].
  apply internal_macro_dec_bl in Q. subst n. reflexivity.
Qed.

Lemma redefined_thm : forall e e', checks e = Some e' -> forall m, value_of e' m = redefined e m.
Proof.
  intros e e' H m. unfold checks in H.
  apply bind_some in H. destruct H as (e1 & H1 & H). apply error_if_inv in H1. subst e1.
  apply bind_some in H. destruct H as (e1 & H1 & H). apply block_spec in H1. destruct H1 as (-> & _).
  apply bind_some in H. destruct H as (e2 & H2 & H). apply can_is in H2.
  apply bind_some in H. destruct H as (e3 & H3 & H). apply seed_is in H3.
  apply bind_some in H. destruct H as (e4 & H4 & H). apply lists_is in H4.
  apply bind_some in H. destruct H as (e5 & H5 & H). apply alloc_is in H5.
  apply bind_some in H. destruct H as (e6 & H6 & H). apply sizes_spec in H6. destruct H6 as (-> & _).
  unfold ck_entities in H. inversion H; subst e'; clear H. change value_of with val.
  assert (V2 : forall n, val e2 n = match n with
    | MaxCto | MaxDto => if (val e Layer =? 1) && (val e CanFd =? 0) then 8 else val e n
    | LengthSize | CounterSize | ChecksumSize => if val e Layer =? 1 then 0 else val e n
    | TransportCmd => if (val e Layer =? 1) && ((val e SlaveId =? 1) || (val e GetDaqId =? 1) || (val e SetDaqId =? 1)) then 1 else val e n
    | _ => val e n end).
  { intros n. subst e2. unfold can_env, on. cbv zeta. rewrite val_if, !val_def, val_if, !val_def, val_if, val_def.
    destruct n; cbn [macro_beq]; rewrite ?if_same; try reflexivity; destruct (val e Layer =? 1); try reflexivity. }
  assert (V3 : forall n, val e3 n = match n with
    | Protection => if (val e GetSeed =? 1) && (val e Unlock =? 1) then 1 else if (val e GetSeed =? 0) && (val e Unlock =? 0) then 0 else val e n
    | _ => val e2 n end).
  { intros n. subst e3. unfold seed_env, on, off. rewrite !val_if, !val_def. destruct n; cbn [macro_beq]; rewrite ?if_same, ?V2; reflexivity. }
  assert (V4 : forall n, val e4 n = match n with
    | DynamicLists => if val e ConfigType =? 1 then 1 else if (val e ConfigType =? 3) || (val e ConfigType =? 0) then 0 else val e n
    | _ => val e3 n end).
  { intros n. subst e4. unfold lists_env'. rewrite !val_if, !val_def. destruct n; cbn [macro_beq]; rewrite ?if_same; try reflexivity.
    rewrite !V3, !V2. destruct (Z.eqb_spec (val e ConfigType) 3), (Z.eqb_spec (val e ConfigType) 1), (Z.eqb_spec (val e ConfigType) 0); try lia; reflexivity. }
  assert (V5 : forall n, val e5 n = match n with
    | FreeDaq | AllocDaq | AllocOdt | AllocOdtEntry => if (val e4 DaqCommands =? 1) && (val e4 DynamicLists =? 0) && (val e4 n =? 1) then 0 else val e4 n
    | _ => val e4 n end).
  { intros n. subst e5. unfold alloc_env. rewrite val_if, !off_env_val. unfold on, off.
    destruct n; cbn [macro_beq andb]; rewrite ?if_same; try reflexivity; destruct ((val e4 DaqCommands =? 1) && (val e4 DynamicLists =? 0)); reflexivity. }
  clear H2 H3 H4 H5. rewrite val_def. destruct m; cbn [macro_beq]; rewrite ?V5, ?V4, ?V3, ?V2; reflexivity.
Qed.
