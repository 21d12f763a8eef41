(** Proofs for C158-C160. *)
From Coq Require Import ZArith NArith List Bool Lia ZifyBool ZifyNat ZifyN.
From Verif Require Import Base Config State Codec Daq Core Checks SpecChecks.
Import ListNotations.
Open Scope Z_scope.

Lemma val_value : forall e m, val e m = value_of e m.
Proof. reflexivity. Qed.

Lemma val_def : forall m z e n, val (def m z e) n = if macro_beq m n then z else val e n.
Proof. intros. unfold val, def. destruct (macro_beq m n); reflexivity. Qed.

Lemma error_if_some : forall b e e', error_if b e = Some e' <-> b = false /\ e' = e.
Proof. intros [] e e'; cbn; split; intros H; try discriminate; try (destruct H; discriminate). inversion H; auto. destruct H as [_ ->]; reflexivity. Qed.

Lemma bind_some : forall r f e', bind r f = Some e' <-> exists e, r = Some e /\ f e = Some e'.
Proof. intros [e|] f e'; cbn; split; intros H; eauto; try discriminate; destruct H as (x & A & B); inversion A; subst; auto. Qed.

(** Macros the later checks read and the earlier ones leave alone. *)
Definition kept : list macro :=
  [MasterBlock; DownloadNext; GetSeed; Unlock; DaqCommands; ConfigType; Predefined; Events; WriteMultiple; MaxDlc; Layer; CanFd; Entities].
Definition dims : list macro := [MaxCto; MaxDto; LengthSize; CounterSize].
Definition same (l : list macro) (e e' : menv) : Prop := forall m, In m l -> val e' m = val e m.

Ltac each := let m := fresh "m" in let Hm := fresh "Hm" in intros m Hm; cbn [In app kept dims] in Hm;
  repeat match type of Hm with _ \/ _ => destruct Hm as [Hm|Hm]; [subst m| ] end; [ .. |destruct Hm].
Ltac ins := cbn [In app kept dims]; repeat (first [left; reflexivity|right]).
Ltac vd := rewrite ?val_def; cbn [macro_beq].

Lemma unsupported_spec : forall e e', ck_unsupported e = Some e' <->
  e' = e /\ forall m, In m [Stim; Alternating; Prioritization; BitOffset; AddrExt; MultipleLists] -> val e m <> 1.
Proof.
  intros. unfold ck_unsupported. rewrite error_if_some. split.
  - intros (A & ->). split; [reflexivity|]. intros m Hm E.
    assert (X : existsb (on e) [Stim; Alternating; Prioritization; BitOffset; AddrExt; MultipleLists] = true)
      by (apply existsb_exists; exists m; split; [exact Hm|unfold on; lia]). congruence.
  - intros (-> & H). split; [|reflexivity]. apply not_true_is_false. intros X. apply existsb_exists in X.
    destruct X as (m & Hm & E). apply (H m Hm). unfold on in E. lia.
Qed.

Lemma block_spec : forall e e', ck_block e = Some e' <->
  e' = e /\ (val e MasterBlock = 1 -> val e DownloadNext <> 0) /\ val e MaxCto <= 255.
Proof.
  intros. unfold ck_block. rewrite bind_some. setoid_rewrite error_if_some. unfold on, off. split.
  - intros (x & (A & ->) & B & ->). split; [reflexivity|lia].
  - intros (-> & A & B). exists e. repeat split; lia.
Qed.

Lemma fd_off : forall e, match e CanFd with None => true | Some _ => off e CanFd end = (val e CanFd =? 0).
Proof. intros. unfold off, val. destruct (e CanFd); reflexivity. Qed.

Lemma can_spec : forall e e', ck_can e = Some e' ->
  same kept e e' /\
  (val e Layer = 1 -> val e CanFd = 0 -> val e' MaxCto = 8 /\ val e' MaxDto = 8) /\
  (val e Layer = 1 -> val e CanFd <> 0 -> 8 <= val e MaxCto <= 64 /\ 8 <= val e MaxDto <= 64) /\
  (val e Layer <> 1 \/ val e CanFd <> 0 -> val e' MaxCto = val e MaxCto /\ val e' MaxDto = val e MaxDto) /\
  (val e Layer = 1 -> val e' LengthSize = 0 /\ val e' CounterSize = 0) /\
  (val e Layer <> 1 -> same dims e e').
Proof.
  intros e e' H. unfold ck_can in H.
  destruct (Z.eqb_spec (val e Layer) 1) as [L|L].
  - remember (if on e SlaveId || on e GetDaqId || on e SetDaqId then def TransportCmd 1 e else e) as e1 eqn:E1.
    assert (K : forall m, m <> TransportCmd -> val e1 m = val e m).
    { intros m Hm. subst e1. destruct (on e SlaveId || on e GetDaqId || on e SetDaqId); [|reflexivity].
      rewrite val_def. destruct (macro_beq TransportCmd m) eqn:Q; [|reflexivity].
      apply internal_macro_dec_bl in Q. congruence. }
    clear E1. cbv zeta in H. rewrite fd_off in H. rewrite bind_some in H. destruct H as (x & A & B). inversion B; subst e'; clear B.
    rewrite (K CanFd) in A by discriminate.
    destruct (Z.eqb_spec (val e CanFd) 0) as [F|F].
    + inversion A; subst x; clear A.
      split; [each; vd; apply K; discriminate|].
      split; [intros _ _; vd; auto|]. split; [lia|]. split; [lia|]. split; [intros _; vd; auto|lia].
    + rewrite bind_some in A. setoid_rewrite error_if_some in A. destruct A as (y & (A & ->) & B & ->).
      rewrite (K MaxCto) in A by discriminate. rewrite (K MaxDto) in B by discriminate.
      split; [each; vd; apply K; discriminate|].
      split; [lia|]. split; [lia|]. split; [intros _; vd; split; apply K; discriminate|].
      split; [intros _; vd; auto|lia].
  - inversion H; subst e'. unfold same. repeat split; intros; try reflexivity; try lia.
Qed.

Lemma can_total : forall e,
  (val e Layer = 1 -> val e CanFd <> 0 -> 8 <= val e MaxCto <= 64 /\ 8 <= val e MaxDto <= 64) -> exists e', ck_can e = Some e'.
Proof.
  intros e H. unfold ck_can. destruct (Z.eqb_spec (val e Layer) 1) as [L|L]; [|eauto].
  remember (if on e SlaveId || on e GetDaqId || on e SetDaqId then def TransportCmd 1 e else e) as e1 eqn:E1.
  assert (K : forall m, m <> TransportCmd -> val e1 m = val e m).
  { intros m Hm. subst e1. destruct (on e SlaveId || on e GetDaqId || on e SetDaqId); [|reflexivity].
    rewrite val_def. destruct (macro_beq TransportCmd m) eqn:Q; [|reflexivity].
    apply internal_macro_dec_bl in Q. congruence. }
  clear E1. cbv zeta. rewrite fd_off. rewrite (K CanFd) by discriminate.
  destruct (Z.eqb_spec (val e CanFd) 0) as [F|F]; [cbn; eauto|].
  specialize (H L F). pose proof (K MaxCto ltac:(discriminate)) as K1. pose proof (K MaxDto ltac:(discriminate)) as K2.
  unfold error_if.
  replace ((val e1 MaxCto <? 8) || (64 <? val e1 MaxCto)) with false by lia. cbn [bind].
  replace ((val e1 MaxDto <? 8) || (64 <? val e1 MaxDto)) with false by lia. cbn. eauto.
Qed.

Lemma seed_spec : forall e e', ck_seed e = Some e' ->
  same (kept ++ dims) e e' /\ ~ (val e GetSeed = 1 /\ val e Unlock = 0) /\ ~ (val e GetSeed = 0 /\ val e Unlock = 1).
Proof.
  intros e e' H. unfold ck_seed, on, off in H.
  repeat match type of H with context [if ?b then _ else _] => destruct b eqn:? end; try discriminate; inversion H; subst e';
    (split; [each; vd; reflexivity|lia]).
Qed.
Lemma seed_total : forall e, ~ (val e GetSeed = 1 /\ val e Unlock = 0) -> ~ (val e GetSeed = 0 /\ val e Unlock = 1) -> exists e', ck_seed e = Some e'.
Proof.
  intros e A B. unfold ck_seed, on, off.
  repeat match goal with |- context [if ?b then _ else _] => destruct b eqn:? end; eauto; exfalso; lia.
Qed.

Lemma lists_env : forall e, let e1 := if val e ConfigType =? 3 then def DynamicLists 0 e
            else if val e ConfigType =? 1 then def DynamicLists 1 e
            else if val e ConfigType =? 0 then def DynamicLists 0 e else e in same (kept ++ dims) e e1.
Proof. intros e. cbv zeta. repeat match goal with |- context [if ?b then _ else _] => destruct b end; each; vd; reflexivity. Qed.

Lemma lists_spec : forall e e', ck_lists e = Some e' ->
  same (kept ++ dims) e e' /\ (val e DaqCommands = 1 -> val e ConfigType = 3 -> val e Predefined <> 0) /\
  (val e DaqCommands = 1 -> 1 <= val e Events).
Proof.
  intros e e' H. unfold ck_lists in H. pose proof (lists_env e) as L. cbv zeta in *.
  set (e1 := if val e ConfigType =? 3 then _ else _) in *. clearbody e1.
  rewrite bind_some in H. setoid_rewrite error_if_some in H. destruct H as (x & (A & ->) & B & ->).
  unfold on, off in *. rewrite !L in A by ins. rewrite !L in B by ins. split; [exact L|lia].
Qed.
Lemma lists_total : forall e, (val e DaqCommands = 1 -> val e ConfigType = 3 -> val e Predefined <> 0) ->
  (val e DaqCommands = 1 -> 1 <= val e Events) -> exists e', ck_lists e = Some e'.
Proof.
  intros e A B. unfold ck_lists. pose proof (lists_env e) as L. cbv zeta in *.
  set (e1 := if val e ConfigType =? 3 then _ else _) in *. clearbody e1.
  exists e1. rewrite bind_some. exists e1. rewrite !error_if_some. unfold on, off. rewrite !L by ins.
  repeat split; lia.
Qed.

Lemma alloc_spec : forall e, exists e', ck_alloc e = Some e' /\ same (kept ++ dims) e e'.
Proof.
  intros e. unfold ck_alloc. destruct (on e DaqCommands && off e DynamicLists); eexists; (split; [reflexivity|]); [|intros m _; reflexivity].
  cbn [fold_left].
  assert (S1 : forall e m, same (kept ++ dims) e (if on e m then def m 0 e else e) \/ In m (kept ++ dims)).
  { intros x m. destruct (in_dec macro_eq_dec m (kept ++ dims)) as [I|I]; [auto|left]. intros n Hn.
    destruct (on x m); [|reflexivity]. rewrite val_def. destruct (macro_beq m n) eqn:Q; [|reflexivity].
    apply internal_macro_dec_bl in Q. congruence. }
  assert (S2 : forall e m, ~ In m (kept ++ dims) -> same (kept ++ dims) e (if on e m then def m 0 e else e)).
  { intros x m I. destruct (S1 x m); [assumption|contradiction]. }
  assert (N1 : ~ In FreeDaq (kept ++ dims)) by (cbn; intuition discriminate).
  assert (N2 : ~ In AllocDaq (kept ++ dims)) by (cbn; intuition discriminate).
  assert (N3 : ~ In AllocOdt (kept ++ dims)) by (cbn; intuition discriminate).
  assert (N4 : ~ In AllocOdtEntry (kept ++ dims)) by (cbn; intuition discriminate).
  intros m Hm. rewrite (S2 _ AllocOdtEntry N4 m Hm), (S2 _ AllocOdt N3 m Hm), (S2 _ AllocDaq N2 m Hm). apply (S2 _ FreeDaq N1 m Hm).
Qed.

Lemma sizes_spec : forall e e', ck_sizes e = Some e' <->
  e' = e /\ (val e WriteMultiple = 1 -> 10 <= val e MaxCto) /\ (val e MaxDlc = 1 -> val e Layer = 1) /\
  0 <= val e CounterSize <= 2 /\ 0 <= val e LengthSize <= 2.
Proof.
  intros. unfold ck_sizes, on. split.
  - rewrite bind_some. setoid_rewrite error_if_some. intros (x & (A & ->) & H).
    rewrite bind_some in H. setoid_rewrite error_if_some in H. destruct H as (y & (B & ->) & H).
    rewrite bind_some in H. setoid_rewrite error_if_some in H. destruct H as (z & (C & ->) & D & ->).
    split; [reflexivity|lia].
  - intros (-> & A & B & C & D). unfold error_if.
    replace ((val e WriteMultiple =? 1) && (val e MaxCto <? 10)) with false by lia. cbn [bind].
    replace (negb (val e Layer =? 1) && (val e MaxDlc =? 1)) with false by lia. cbn [bind].
    replace (negb (val e CounterSize =? 0) && negb (val e CounterSize =? 1) && negb (val e CounterSize =? 2)) with false by lia. cbn [bind].
    replace (negb (val e LengthSize =? 0) && negb (val e LengthSize =? 1) && negb (val e LengthSize =? 2)) with false by lia. reflexivity.
Qed.

Lemma same_trans : forall l a b c, same l a b -> same l b c -> same l a c.
Proof. intros l a b c A B m Hm. rewrite (B m Hm). apply A, Hm. Qed.
Lemma same_l : forall e e', same (kept ++ dims) e e' -> same kept e e'.
Proof. intros e e' H m Hm. apply H, in_or_app; auto. Qed.

(** What the checks leave behind, and that they accept. *)
Definition leaves (e e' : menv) : Prop :=
  same kept e e' /\
  (val e Layer = 1 -> val e CanFd = 0 -> val e' MaxCto = 8 /\ val e' MaxDto = 8) /\
  (val e Layer <> 1 \/ val e CanFd <> 0 -> val e' MaxCto = val e MaxCto /\ val e' MaxDto = val e MaxDto) /\
  (val e Layer = 1 -> val e' LengthSize = 0 /\ val e' CounterSize = 0) /\
  (val e Layer <> 1 -> same dims e e').

Lemma checks_sound : forall e e', checks e = Some e' -> acceptable e /\ leaves e e'.
Proof.
  intros e e' H. unfold checks in H.
  apply bind_some in H. destruct H as (e1 & H1 & H). apply unsupported_spec in H1. destruct H1 as (-> & U).
  apply bind_some in H. destruct H as (e1 & H1 & H). apply block_spec in H1. destruct H1 as (-> & B1 & B2).
  apply bind_some in H. destruct H as (e2 & H1 & H). apply can_spec in H1. destruct H1 as (K & C1 & C2 & C3 & C4 & C5).
  apply bind_some in H. destruct H as (e3 & H1 & H). apply seed_spec in H1. destruct H1 as (K3 & S1 & S2).
  apply bind_some in H. destruct H as (e4 & H1 & H). apply lists_spec in H1. destruct H1 as (K4 & L1 & L2).
  apply bind_some in H. destruct H as (e5 & H1 & H). destruct (alloc_spec e4) as (e5' & H5 & K5). rewrite H1 in H5. inversion H5; subst e5'; clear H5.
  apply bind_some in H. destruct H as (e6 & H6 & H). apply sizes_spec in H6. destruct H6 as (-> & Z1 & Z2 & Z3 & Z4).
  unfold ck_entities in H. inversion H; subst e'; clear H.
  assert (K25 : same (kept ++ dims) e2 e5) by (eapply same_trans; [exact K3|eapply same_trans; [exact K4|exact K5]]).
  assert (K05 : same kept e e5) by (eapply same_trans; [exact K|apply same_l, K25]).
  assert (K03 : same kept e e3) by (eapply same_trans; [exact K|apply same_l, K3]).
  rewrite (K GetSeed), (K Unlock) in S1 by ins. rewrite (K GetSeed), (K Unlock) in S2 by ins.
  rewrite (K03 DaqCommands), (K03 ConfigType), (K03 Predefined) in L1 by ins. rewrite (K03 DaqCommands), (K03 Events) in L2 by ins.
  rewrite (K05 WriteMultiple) in Z1 by ins. rewrite (K05 MaxDlc), (K05 Layer) in Z2 by ins.
  rewrite (K25 MaxCto) in Z1 by ins. rewrite (K25 CounterSize) in Z3 by ins. rewrite (K25 LengthSize) in Z4 by ins.
  split.
  - constructor; change value_of with val; try assumption.
    + clear - S1. intros A B. apply S1. auto.
    + clear - S2. intros A B. apply S2. auto.
    + unfold classic_can. change value_of with val. intros W. specialize (Z1 W). clear - Z1 C1 C3.
      destruct (Z.eq_dec (val e Layer) 1) as [L|L].
      * destruct (Z.eq_dec (val e CanFd) 0) as [F|F]; [destruct (C1 L F); lia|].
        destruct (C3 (or_intror F)) as (Q & _). rewrite Q in Z1. split; [tauto|exact Z1].
      * destruct (C3 (or_introl L)) as (Q & _). rewrite Q in Z1. split; [tauto|exact Z1].
    + intros N. specialize (C5 N). rewrite (C5 CounterSize) in Z3 by ins. rewrite (C5 LengthSize) in Z4 by ins. auto.
  - assert (D : forall m, In m (kept ++ dims) -> val (def EntityBits (if val e5 Entities <? 256 then 8 else if val e5 Entities <? 65536 then 16 else 32) e5) m = val e2 m).
    { intros m Hm. rewrite <- (K25 m Hm). rewrite val_def. destruct (macro_beq EntityBits m) eqn:Q; [|reflexivity].
      apply internal_macro_dec_bl in Q. subst m. exfalso. revert Hm. cbn. intuition discriminate. }
    unfold leaves. split; [intros m Hm; rewrite D by (apply in_or_app; auto); apply K, Hm|].
    rewrite !D by ins. split; [exact C1|]. split; [exact C3|]. split; [exact C4|].
    intros N m Hm. rewrite D by (apply in_or_app; auto). apply C5; assumption.
Qed.

Lemma checks_complete : forall e, acceptable e -> exists e', checks e = Some e'.
Proof.
  intros e [U B1 B2 F S1 S2 L1 L2 W X Z]. unfold classic_can in W. change value_of with val in *. unfold checks.
  rewrite (proj2 (unsupported_spec e e)) by (split; [reflexivity|exact U]). cbn [bind].
  rewrite (proj2 (block_spec e e)) by (split; [reflexivity|split; [exact B1|exact B2]]). cbn [bind].
  destruct (can_total e F) as (e2 & H2). pose proof (can_spec _ _ H2) as (K & C1 & C2 & C3 & C4 & C5). rewrite H2. cbn [bind].
  destruct (seed_total e2) as (e3 & H3); [rewrite (K GetSeed), (K Unlock) by ins; intros (P & Q)..|];
    [exact (S1 P Q)|exact (S2 Q P)|].
  pose proof (seed_spec _ _ H3) as (K3 & _). rewrite H3. cbn [bind].
  assert (K03 : same kept e e3) by (eapply same_trans; [exact K|apply same_l, K3]).
  destruct (lists_total e3) as (e4 & H4);
    [rewrite (K03 DaqCommands), (K03 ConfigType), (K03 Predefined) by ins; exact L1
    |rewrite (K03 DaqCommands), (K03 Events) by ins; exact L2|].
  pose proof (lists_spec _ _ H4) as (K4 & _). rewrite H4. cbn [bind].
  destruct (alloc_spec e4) as (e5 & H5 & K5). rewrite H5. cbn [bind].
  assert (K25 : same (kept ++ dims) e2 e5) by (eapply same_trans; [exact K3|eapply same_trans; [exact K4|exact K5]]).
  assert (K05 : same kept e e5) by (eapply same_trans; [exact K|apply same_l, K25]).
  rewrite (proj2 (sizes_spec e5 e5)); [cbn; unfold ck_entities; eauto|].
  rewrite (K05 WriteMultiple), (K05 MaxDlc), (K05 Layer), (K25 MaxCto), (K25 CounterSize), (K25 LengthSize) by ins.
  split; [reflexivity|].
  destruct (Z.eq_dec (val e Layer) 1) as [L|L].
  - destruct (C4 L) as (Q1 & Q2). split; [|split; [exact X|clear - Q1 Q2; lia]].
    intros P. destruct (W P) as (W1 & W2). destruct (Z.eq_dec (val e CanFd) 0) as [Y|Y]; [exfalso; exact (W1 (conj L Y))|].
    rewrite (proj1 (C3 (or_intror Y))). exact W2.
  - pose proof (C5 L CounterSize ltac:(ins)) as Q1. pose proof (C5 L LengthSize ltac:(ins)) as Q2. destruct (Z L) as (Z1 & Z2).
    rewrite Q1, Q2. split; [|split; [exact X|split; [exact Z2|exact Z1]]].
    intros P. rewrite (proj1 (C3 (or_introl L))). exact (proj2 (W P)).
Qed.

Lemma accepted_thm : forall e, (exists e', checks e = Some e') <-> acceptable e.
Proof. intros e. split; [intros (e' & H); exact (proj1 (checks_sound _ _ H))|apply checks_complete]. Qed.

Lemma guarantees_thm : forall e e' c, checks e = Some e' -> switches e -> describes e' c ->
  (c_max_cto c <= 255 /\ c_len_size c <= 2 /\ c_ctr_size c <= 2)%N /\
  (c_max_dlc c = true -> c_len_size c = 0 /\ c_ctr_size c = 0)%N /\
  c_opt c 0xF8 = c_opt c 0xF7 /\ (c_mbm c = true -> c_opt c 0xEF = true) /\
  (c_opt c 0xC7 = true -> 10 <= c_max_cto c)%N /\ (c_daq c = true -> 1 <= lenN (c_events c))%N /\
  (value_of e Layer = 1 -> (8 <= c_max_cto c <= 64 /\ 8 <= c_max_dto c <= 64)%N).
Proof.
  intros e e' c H W D. destruct (checks_sound _ _ H) as (A & K & V1 & V2 & V3 & V4).
  destruct A as [U B1 B2 F S1 S2 L1 L2 M X Z]. unfold classic_can in M. change value_of with val in *.
  destruct D as [D1 D2 D3 D4 D5 D6 D7 D8 D9 D10 D11 D12]. change value_of with val in *.
  rewrite (K Events) in D5 by ins. rewrite (K MaxDlc) in D6 by ins.
  rewrite (K GetSeed) in D7 by ins. rewrite (K Unlock) in D8 by ins.
  rewrite (K WriteMultiple) in D9 by ins. rewrite (K MasterBlock) in D10 by ins.
  rewrite (K DownloadNext) in D11 by ins. rewrite (K DaqCommands) in D12 by ins.
  unfold switches in W. change value_of with val in W.
  pose proof (W DownloadNext ltac:(ins)) as W1. pose proof (W GetSeed ltac:(ins)) as W2. pose proof (W Unlock ltac:(ins)) as W3.
  assert (Q : val e Layer = 1 -> 8 <= val e' MaxCto <= 64 /\ 8 <= val e' MaxDto <= 64).
  { intros L. destruct (Z.eq_dec (val e CanFd) 0) as [Y|Y]; [destruct (V1 L Y) as (P & Q); clear - P Q; lia|]. destruct (V2 (or_intror Y)) as (P & Q). destruct (F L Y) as (P1 & Q1). clear - P Q P1 Q1; lia. }
  assert (R : val e Layer <> 1 -> val e' MaxCto = val e MaxCto /\ 0 <= val e' LengthSize <= 2 /\ 0 <= val e' CounterSize <= 2).
  { intros L. pose proof (V4 L CounterSize ltac:(ins)) as P1. pose proof (V4 L LengthSize ltac:(ins)) as P2. destruct (V2 (or_introl L)) as (P3 & _). destruct (Z L) as (P4 & P5). clear - P1 P2 P3 P4 P5. lia. }
  assert (P1 : c_opt c 0xF8 = c_opt c 0xF7).
  { clear - D7 D8 W2 W3 S1 S2. destruct (c_opt c 0xF8), (c_opt c 0xF7); try reflexivity; exfalso.
    - pose proof (proj2 D7 eq_refl) as P. specialize (S1 P). destruct W3 as [Q|Q]; [exact (S1 Q)|]. apply D8 in Q. discriminate.
    - pose proof (proj2 D8 eq_refl) as P. specialize (S2 P). destruct W2 as [Q|Q]; [exact (S2 Q)|]. apply D7 in Q. discriminate. }
  assert (P2 : c_mbm c = true -> c_opt c 0xEF = true).
  { intros E. apply D11. apply D10 in E. destruct W1 as [T|T]; [exfalso; exact (B1 E T)|exact T]. }
  assert (P3 : c_opt c 0xC7 = true -> (10 <= c_max_cto c)%N).
  { intros E. apply D9 in E. destruct (M E) as (M1 & M2). destruct (Z.eq_dec (val e Layer) 1) as [L|L]; [|destruct (R L) as (P & _); clear - P M2 D1; lia].
    destruct (Z.eq_dec (val e CanFd) 0) as [Y|Y]; [exfalso; exact (M1 (conj L Y))|]. destruct (V2 (or_intror Y)) as (P & _). clear - P M2 D1; lia. }
  assert (P4 : c_daq c = true -> (1 <= lenN (c_events c))%N).
  { intros E. apply D12 in E. specialize (L2 E). clear - L2 D5. lia. }
  assert (P5 : c_max_dlc c = true -> (c_len_size c = 0 /\ c_ctr_size c = 0)%N).
  { intros E. apply D6 in E. destruct (V3 (X E)) as (T1 & T2). clear - T1 T2 D3 D4. lia. }
  destruct (Z.eq_dec (val e Layer) 1) as [L|L].
  - assert (T : val e' MaxCto <= 255 /\ val e' LengthSize <= 2 /\ val e' CounterSize <= 2) by (destruct (Q L) as (Q1 & _); destruct (V3 L) as (Q2 & Q3); clear - Q1 Q2 Q3; lia).
    split; [clear - T D1 D3 D4; lia|]. do 5 (split; [assumption|]). intros _. specialize (Q L). clear - Q D1 D2. lia.
  - assert (T : val e' MaxCto <= 255 /\ val e' LengthSize <= 2 /\ val e' CounterSize <= 2) by (specialize (R L); clear - R B2; lia).
    split; [clear - T D1 D3 D4; lia|]. do 5 (split; [assumption|]). intros Y. contradiction.
Qed.

(** ** What is accepted and does not work *)
Open Scope N_scope.

Lemma boot_out : forall c m s, boot c m = Ok s -> lenN (s_out s) = c_max_cto c /\ s_conn s = false.
Proof.
  intros c m s H. unfold boot, xcp_init, daq_init_st in H. cbv zeta in H.
  assert (R : lenN (repeat 0 (N.to_nat (c_max_cto c))) = c_max_cto c) by (unfold lenN; rewrite repeat_length; lia).
  destruct (c_daq c); [destruct (daq_init c _) as [d|w]; [|discriminate H]|]; cbn [Base.bind] in H;
    destruct (job_on c); inversion H; subst s; split; [exact R|reflexivity|exact R|reflexivity|exact R|reflexivity|exact R|reflexivity].
Qed.

Lemma connect_thm : forall c m s e f, c_max_cto c < 8 -> c_max_dlc c = false -> boot c m = Ok s -> hd_error f = Some 0xFF ->
  exists w, step c e (ORecv f) s = UB w.
Proof.
  intros c m s e f C D B F. destruct (boot_out _ _ _ B) as (O & K). destruct f as [|b f]; [discriminate|]. inversion F; subst b.
  cbn [step]. unfold receive. replace (lenN (0xFF :: f) =? 0) with false by (unfold lenN; cbn [length]; lia).
  destruct (c_ctobuf c <? lenN (0xFF :: f)); [eauto|]. unfold dispatch.
  destruct (lenN (s_in (set_s_in (splice (s_in s) 0 (0xFF :: f)) s)) <? 8) eqn:L; [eauto|].
  cbn [s_conn set_s_in]. rewrite K. cbv zeta.
  replace (gb (s_in (set_s_in (splice (s_in s) 0 (0xFF :: f)) s)) 0 =? 0xFF) with true by reflexivity.
  unfold h_connect. cbv zeta. unfold send8. rewrite D. cbn [N.leb N.compare Pos.compare Pos.compare_cont]. unfold poke.
  match goal with |- context [lenN (s_out ?x) <? 0 + lenN ?l] => replace (lenN (s_out x) <? 0 + lenN l) with true by (change (s_out x) with (s_out s); rewrite O; change (0 + lenN l) with 8; lia) end.
  cbn [Base.bind]. eauto.
Qed.

Lemma trigger_thm : forall c e s ev, lenN (c_events c) mod 256 <= ev -> step c e (OTrigger ev) s = Ok (s, []).
Proof.
  intros c e s ev H. cbn [step]. unfold trigger. destruct (c_daq c); [|reflexivity]. cbn [negb]. unfold sample_event.
  destruct (d_run (s_daq s)); [|reflexivity]. cbn [negb].
  replace (u8 (c_nevents c) <=? ev) with true by (symmetry; apply N.leb_le; exact H). reflexivity.
Qed.

Lemma small_thm : forall e e' c m s en f, checks e = Some e' -> describes e' c ->
  value_of e Layer <> 1%Z -> (value_of e MaxCto < 8)%Z -> boot c m = Ok s -> hd_error f = Some 0xFF ->
  exists w, step c en (ORecv f) s = UB w.
Proof.
  intros e e' c m s en f H D L M B F. destruct (checks_sound _ _ H) as (A & K & _ & V2 & _).
  apply connect_thm with (m := m); [| |exact B|exact F].
  - destruct (V2 (or_introl L)) as (P & _). pose proof (d_cto _ _ D) as Q. change value_of with val in *. clear - P Q M. lia.
  - destruct (c_max_dlc c) eqn:E; [|reflexivity]. exfalso. apply (d_dlc _ _ D) in E. change value_of with val in *.
    rewrite (K MaxDlc) in E by ins. exact (L (a_dlc _ A E)).
Qed.

Lemma small_accepted : forall e z, acceptable e -> value_of e Layer <> 1%Z -> value_of e WriteMultiple <> 1%Z -> (z < 8)%Z ->
  exists e', checks (fun m => match m with MaxCto => Some z | _ => e m end) = Some e'.
Proof.
  intros e z A L W Z. apply checks_complete.
  assert (S : forall m, m <> MaxCto -> value_of (fun m => match m with MaxCto => Some z | _ => e m end) m = value_of e m)
    by (intros m Hm; unfold value_of; destruct m; try reflexivity; congruence).
  destruct A as [U B1 B2 F S1 S2 L1 L2 M X Y].
  constructor; rewrite ?S by discriminate; try assumption.
  - intros m Hm. rewrite S; [apply U, Hm|]. intros ->. cbn in Hm. intuition discriminate.
  - unfold value_of. lia.
  - intros E. contradiction.
  - intros E. contradiction.
Qed.

Lemma events_thm : forall e e' c en s ev, checks e = Some e' -> describes e' c ->
  (value_of e Events mod 256 <= Z.of_N ev)%Z -> step c en (OTrigger ev) s = Ok (s, []).
Proof.
  intros e e' c en s ev H D M. destruct (checks_sound _ _ H) as (_ & K & _).
  apply trigger_thm. pose proof (d_events _ _ D) as Q. change value_of with val in *. rewrite (K Events) in Q by ins.
  rewrite Q in M. clear - M. change 256%Z with (Z.of_N 256) in M. rewrite <- N2Z.inj_mod in M by discriminate. lia.
Qed.

Lemma events_accepted : forall e z, acceptable e -> (1 <= z)%Z ->
  exists e', checks (fun m => match m with Events => Some z | _ => e m end) = Some e'.
Proof.
  intros e z A Z. apply checks_complete.
  assert (S : forall m, m <> Events -> value_of (fun m => match m with Events => Some z | _ => e m end) m = value_of e m)
    by (intros m Hm; unfold value_of; destruct m; try reflexivity; congruence).
  destruct A as [U B1 B2 F S1 S2 L1 L2 M X Y].
  constructor; unfold classic_can; rewrite ?S by discriminate; try assumption.
  - intros m Hm. rewrite S; [apply U, Hm|]. intros ->. cbn in Hm. intuition discriminate.
  - intros _. exact Z.
Qed.
