From Coq Require Import ZArith NArith List Bool Lia.
From Coq Require Import ZifyBool ZifyNat ZifyN.
From Verif Require Import Base Config Codec State Core Spec Lists Net SpecNet.
Import ListNotations.
Open Scope N_scope.

Lemma sent_snd : forall u n o, map snd (sent u n o) = o.
Proof. intros. unfold sent. rewrite map_map. cbn [snd]. apply map_id. Qed.
Lemma sent_fst : forall u n o d x, In (d, x) (sent u n o) -> d = dest u n.
Proof. intros u n o d x H. unfold sent in H. apply in_map_iff in H. destruct H as [p [E _]]. congruence. Qed.

Theorem any_peer : forall c n e p q f n1 o1, net_step c true (EFrame e p f) n = Ok (n1, o1) ->
  exists n2 o2, net_step c true (EFrame e q f) n = Ok (n2, o2) /\ t_st n2 = t_st n1 /\ map snd o2 = map snd o1.
Proof.
  intros c n e p q f n1 o1. cbn [net_step]. destruct (receive c e f (t_st n)) as [[s o]|w]; cbn [bind]; [|discriminate].
  intros E. injection E as <- <-. eexists _, _. split; [reflexivity|]. split; [reflexivity|]. rewrite !sent_snd. reflexivity.
Qed.

Lemma saves_hd : forall s f, hd_error f <> Some 0xFF -> saves s f = false.
Proof. intros s [|x f] H; [reflexivity|]. cbn in *. replace (x =? 255) with false by (assert (x <> 255) by congruence; lia). reflexivity. Qed.

Lemma keeps_conn : forall c ev n n1 o1, no_connect ev -> net_step c true ev n = Ok (n1, o1) ->
  t_conn n1 = t_conn n /\ (forall d x, In (d, x) o1 -> d = t_conn n).
Proof.
  intros c ev n n1 o1 NC E. destruct ev as [e p f|p| |e o]; cbn [net_step no_connect] in *.
  - rewrite (saves_hd _ f NC) in E. destruct (receive c e f (t_st n)) as [[s o]|w]; cbn [bind] in E; [|discriminate E]. injection E as <- <-.
    destruct (negb (lenN f =? 0) && releases c e (t_st n) (splice (s_in (t_st n)) 0 f)); (split; [reflexivity|]); intros d x I; rewrite (sent_fst _ _ _ _ _ I); reflexivity.
  - cbn [orb] in E. injection E as <- <-. split; [reflexivity|]. intros d x [].
  - injection E as <- <-. split; [reflexivity|]. intros d x [].
  - destruct (step c e o (t_st n)) as [[s out]|w]; cbn [bind] in E; [|discriminate E].
    destruct o; try (injection E as <- <-; split; [reflexivity|]; intros d x I; rewrite (sent_fst _ _ _ _ _ I); reflexivity). destruct NC.
Qed.

Lemma keeps_conn_run : forall c l n n1 o1, Forall no_connect l -> net_run c true l n = Ok (n1, o1) ->
  t_conn n1 = t_conn n /\ (forall d x, In (d, x) o1 -> d = t_conn n).
Proof.
  intros c l. induction l as [|ev l IH]; intros n n1 o1 F E; cbn [net_run] in E.
  - injection E as <- <-. split; [reflexivity|]. intros d x [].
  - inversion F as [|? ? F1 F2]; subst. destruct (net_step c true ev n) as [[m p]|w] eqn:S; cbn [bind] in E; [|discriminate E].
    destruct (net_run c true l m) as [[m2 p2]|w] eqn:R; cbn [bind] in E; [|discriminate E]. injection E as <- <-.
    destruct (keeps_conn c ev n m p F1 S) as [A1 A2]. destruct (IH m m2 p2 F2 R) as [B1 B2]. split; [congruence|].
    intros d x I. apply in_app_or in I. destruct I as [I|I]; [exact (A2 d x I)|]. rewrite (B2 d x I). exact A1.
Qed.

(** CONNECT from anybody: every frame from now on goes there. *)
Theorem takeover : forall c n e q f l n1 o1, hd_error f = Some 0xFF -> s_busy (t_st n) = false -> Forall no_connect l ->
  net_run c true (EFrame e q f :: l) n = Ok (n1, o1) -> forall d x, In (d, x) o1 -> d = q.
Proof.
  intros c n e q f l n1 o1 H B F E d x I. cbn [net_run] in E.
  destruct (net_step c true (EFrame e q f) n) as [[m p]|w] eqn:S; cbn [bind] in E; [|discriminate E].
  destruct (net_run c true l m) as [[m2 p2]|w] eqn:R; cbn [bind] in E; [|discriminate E]. injection E as <- <-.
  destruct (keeps_conn_run c l m m2 p2 F R) as [_ K].
  cbn [net_step] in S. destruct (receive c e f (t_st n)) as [[s o]|w]; cbn [bind] in S; [|discriminate S].
  assert (SV : saves (t_st n) f = true).
  { destruct f as [|y f]; [discriminate H|]. injection H as ->. cbn. rewrite B, andb_false_r. reflexivity. }
  rewrite SV in S. injection S as <- <-. apply in_app_or in I. destruct I as [I|I].
  - rewrite (sent_fst _ _ _ _ _ I). reflexivity.
  - rewrite (K d x I). reflexivity.
Qed.

(** The next peer continues the session of the previous one. *)
Theorem session_survives : forall c n p q e f, t_sock n = Some p ->
  net_run c false [EEof; EAccept q] n = Ok (mkNet (t_st n) false (Some q) q (t_conn n), []) /\
  forall n1 o1, net_step c false (EFrame e p f) n = Ok (n1, o1) ->
  exists n2 o2, net_run c false [EEof; EAccept q; EFrame e q f] n = Ok (n2, o2) /\ t_st n2 = t_st n1 /\ map snd o2 = map snd o1 /\
    forall d x, In (d, x) o2 -> d = q.
Proof.
  intros c n p q e f S. split; [reflexivity|]. intros n1 o1. cbn [net_run net_step bind orb t_tl t_st t_conn t_cur t_sock].
  destruct (receive c e f (t_st n)) as [[s o]|w]; cbn [bind]; [|discriminate]. intros E. injection E as <- <-.
  eexists _, _. split; [reflexivity|]. split; [reflexivity|]. cbn [app]. rewrite app_nil_r, !sent_snd. split; [reflexivity|].
  intros d x I. rewrite (sent_fst _ _ _ _ _ I). unfold dest.
  destruct (saves (t_st n) f); [reflexivity|]. destruct (negb (lenN f =? 0) && releases c e (t_st n) (splice (s_in (t_st n)) 0 f)); reflexivity.
Qed.

(** No other peer gets in. *)
Lemma gb_splice0 : forall b k f, gb (splice b 0 (k :: f)) 0 = k.
Proof. intros. unfold splice. rewrite take_0. reflexivity. Qed.
Lemma holds_step : forall c ev n n1 o1 p, t_sock n = Some p -> t_tl n = true -> no_end ev -> net_step c false ev n = Ok (n1, o1) ->
  t_sock n1 = Some p /\ t_tl n1 = true /\ (forall d x, In (d, x) o1 -> d = p).
Proof.
  intros c ev n n1 o1 p S T K E. destruct ev as [e q f|q| |e o]; cbn [net_step no_end] in *.
  - destruct K as (k & H & K1 & K2). destruct f as [|y f]; [discriminate|]. injection H as ->.
    assert (R : releases c e (t_st n) (splice (s_in (t_st n)) 0 (k :: f)) = false).
    { unfold releases. rewrite gb_splice0. destruct (N.eqb_spec k 0xFE); [contradiction|]. destruct (N.eqb_spec k 0xF7); [contradiction|].
      cbn [andb orb]. apply andb_false_r. }
    rewrite R, andb_false_r in E. destruct (receive c e (k :: f) (t_st n)) as [[s o]|w]; cbn [bind] in E; [|discriminate E].
    destruct (saves (t_st n) (k :: f)); injection E as <- <-; cbn [t_sock t_tl]; (split; [exact S|split; [auto|]]); intros d x I; rewrite (sent_fst _ _ _ _ _ I);
      unfold dest; cbn [t_sock]; rewrite S; reflexivity.
  - rewrite T in E. cbn [orb] in E. injection E as <- <-. split; [exact S|split; [exact T|]]. intros d x [].
  - destruct K.
  - destruct K as (K1 & K2). destruct (step c e o (t_st n)) as [[s out]|w]; cbn [bind] in E; [|discriminate E].
    destruct o; try congruence; injection E as <- <-; cbn [t_sock t_tl]; (split; [exact S|split; [exact T|]]); intros d x I; rewrite (sent_fst _ _ _ _ _ I);
      unfold dest; cbn [t_sock]; rewrite S; reflexivity.
Qed.
Lemma holds_run : forall c l n n1 o1 p, t_sock n = Some p -> t_tl n = true -> Forall no_end l -> net_run c false l n = Ok (n1, o1) ->
  t_sock n1 = Some p /\ t_tl n1 = true /\ (forall d x, In (d, x) o1 -> d = p).
Proof.
  intros c l. induction l as [|ev l IH]; intros n n1 o1 p S T F E; cbn [net_run] in E.
  - injection E as <- <-. split; [exact S|split; [exact T|]]. intros d x [].
  - inversion F as [|? ? F1 F2]; subst. destruct (net_step c false ev n) as [[m q]|w] eqn:Q; cbn [bind] in E; [|discriminate E].
    destruct (net_run c false l m) as [[m2 p2]|w] eqn:R; cbn [bind] in E; [|discriminate E]. injection E as <- <-.
    destruct (holds_step c ev n m q p S T F1 Q) as (A1 & A2 & A3). destruct (IH m m2 p2 p A1 A2 F2 R) as (B1 & B2 & B3).
    split; [exact B1|split; [exact B2|]]. intros d x I. apply in_app_or in I. destruct I as [I|I]; [exact (A3 d x I)|exact (B3 d x I)].
Qed.
Theorem holds_thm : forall c n p e q f l n1 o1, t_sock n = Some p -> s_busy (t_st n) = false -> hd_error f = Some 0xFF -> Forall no_end l ->
  net_run c false (EFrame e q f :: l) n = Ok (n1, o1) -> t_sock n1 = Some p /\ t_tl n1 = true /\ (forall d x, In (d, x) o1 -> d = p).
Proof.
  intros c n p e q f l n1 o1 S B H F E. cbn [net_run] in E.
  destruct (net_step c false (EFrame e q f) n) as [[m r]|w] eqn:Q; cbn [bind] in E; [|discriminate E].
  destruct (net_run c false l m) as [[m2 p2]|w] eqn:R; cbn [bind] in E; [|discriminate E]. injection E as <- <-.
  cbn [net_step] in Q. destruct (receive c e f (t_st n)) as [[s o]|w]; cbn [bind] in Q; [|discriminate Q].
  assert (SV : saves (t_st n) f = true).
  { destruct f as [|y f]; [discriminate H|]. injection H as ->. cbn. rewrite B, andb_false_r. reflexivity. }
  rewrite SV in Q. injection Q as <- <-. cbn [t_cur] in *.
  destruct (holds_run c l (mkNet s true (t_sock n) (t_cur n) (t_cur n)) m2 p2 p S eq_refl F R) as (B1 & B2 & B3). split; [exact B1|split; [exact B2|]].
  intros d x I. apply in_app_or in I. destruct I as [I|I]; [|exact (B3 d x I)]. rewrite (sent_fst _ _ _ _ _ I). unfold dest. cbn [t_sock]. rewrite S. reflexivity.
Qed.
(** Before that, anybody does. *)
Theorem displaced_thm : forall c n p q l n1 o1, t_sock n = Some p -> t_tl n = false ->
  Forall (fun ev => no_end ev /\ no_connect ev /\ forall r, ev <> EAccept r) l -> net_run c false (EAccept q :: l) n = Ok (n1, o1) ->
  t_sock n1 = Some q /\ (forall d x, In (d, x) o1 -> d = q).
Proof.
  intros c n p q l n1 o1 S T F E. cbn [net_run net_step] in E. rewrite T in E. cbn [orb bind] in E.
  destruct (net_run c false l (mkNet (t_st n) false (Some q) q (t_conn n))) as [[m2 p2]|w] eqn:R; cbn [bind] in E; [|discriminate E].
  injection E as <- <-. cbn [app]. clear S T. remember (mkNet (t_st n) false (Some q) q (t_conn n)) as m eqn:M.
  assert (S : t_sock m = Some q) by (subst m; reflexivity). clear M. revert m m2 p2 S R.
  induction l as [|ev l IH]; intros m m2 p2 S R; cbn [net_run] in R.
  - injection R as <- <-. split; [exact S|]. intros d x [].
  - inversion F as [|? ? (F1 & F2 & F3) F4]; subst. destruct (net_step c false ev m) as [[m1 r]|w] eqn:Q; cbn [bind] in R; [|discriminate R].
    destruct (net_run c false l m1) as [[m3 p3]|w] eqn:R2; cbn [bind] in R; [|discriminate R]. injection R as <- <-.
    assert (G : t_sock m1 = Some q /\ (forall d x, In (d, x) r -> d = q)).
    { destruct ev as [e y f|y| |e o]; cbn [net_step no_end] in *.
      - destruct (receive c e f (t_st m)) as [[s o]|w]; cbn [bind] in Q; [|discriminate Q].
        destruct (saves (t_st m) f); [|destruct (_ && _)]; injection Q as <- <-; cbn [t_sock]; (split; [exact S|]); intros d x I; rewrite (sent_fst _ _ _ _ _ I);
          unfold dest; cbn [t_sock]; rewrite S; reflexivity.
      - exfalso. eapply F3. reflexivity.
      - destruct F1.
      - destruct F1 as (K1 & K2). destruct (step c e o (t_st m)) as [[s out]|w]; cbn [bind] in Q; [|discriminate Q].
        destruct o; try congruence; injection Q as <- <-; cbn [t_sock]; (split; [exact S|]); intros d x I; rewrite (sent_fst _ _ _ _ _ I);
          unfold dest; cbn [t_sock]; rewrite S; reflexivity. }
    destruct G as (G1 & G2). destruct (IH F4 m1 m3 p3 G1 R2) as (B1 & B2). split; [exact B1|].
    intros d x I. apply in_app_or in I. destruct I as [I|I]; [exact (G2 d x I)|exact (B2 d x I)].
Qed.
