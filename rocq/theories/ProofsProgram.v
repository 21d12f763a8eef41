From Coq Require Import NArith ZArith List Bool Lia ZifyBool ZifyNat ZifyN.
From Verif Require Import Base Program SpecProgram.
Import ListNotations.
Open Scope N_scope.

(** ** Keys *)
Lemma quits_iff : forall k, ((lower k =? 0x1B) || (lower k =? 0x71)) = true <-> quits [k].
Proof.
  intros k. unfold quits, lower. split.
  - intros H. destruct ((65 <=? k) && (k <=? 90)) eqn:E; [right; left; f_equal; lia|]. destruct (N.eqb_spec k 0x1B) as [->|]; [auto|]. left. f_equal. lia.
  - intros [H|[H|H]]; injection H as ->; reflexivity.
Qed.
Lemma keys_thm : forall rs,
  (exists a r b ds, rs = a ++ r :: b /\ quits r /\ (forall x, In x a -> ~ quits x) /\ Forall2 asks_for a ds /\ keys rs = (concat ds, true)) \/
  (exists ds, (forall x, In x rs -> ~ quits x) /\ Forall2 asks_for rs ds /\ keys rs = (concat ds, false)).
Proof.
  induction rs as [|r rs IH]; [right; exists []; repeat split; auto|].
  assert (Q : quits r \/ ~ quits r). { unfold quits. destruct (list_eq_dec N.eq_dec r [0x71]), (list_eq_dec N.eq_dec r [0x51]), (list_eq_dec N.eq_dec r [0x1B]); tauto. }
  destruct Q as [Q|Q].
  - left. exists [], r, rs, []. repeat split; auto. destruct Q as [-> |[-> | ->]]; reflexivity.
  - assert (K : exists d, asks_for r d /\ keys (r :: rs) = (d ++ fst (keys rs), snd (keys rs))).
    { destruct r as [|k [|k2 r]].
      - exists []. split; [unfold asks_for; right; right; right; split; [cbn; intuition discriminate|reflexivity]|]. cbn. now destruct (keys rs).
      - cbn [keys getch]. destruct ((lower k =? 0x1B) || (lower k =? 0x71)) eqn:E; [apply quits_iff in E; contradiction|].
        assert (T : forall a b, 97 <= a <= 122 -> b = a - 32 -> (lower k =? a) = true <-> k = a \/ k = b).
        { intros a b A ->. unfold lower. destruct ((65 <=? k) && (k <=? 90)) eqn:E2; lia. }
        pose proof (T 0x68 0x48 ltac:(lia) eq_refl) as T1. pose proof (T 0x69 0x49 ltac:(lia) eq_refl) as T2. pose proof (T 0x64 0x44 ltac:(lia) eq_refl) as T3.
        unfold asks_for. destruct (lower k =? 0x68); [exists [ShowHelp]; split; [left; destruct (proj1 T1 eq_refl) as [-> | ->]; auto|reflexivity]|].
        destruct (lower k =? 0x69); [exists [ShowSystem]; split; [right; left; destruct (proj1 T2 eq_refl) as [-> | ->]; auto|reflexivity]|].
        destruct (lower k =? 0x64); [exists [ShowDaq]; split; [right; right; left; destruct (proj1 T3 eq_refl) as [-> | ->]; auto|reflexivity]|].
        exists []. split; [|now destruct (keys rs)]. right; right; right. split; [|reflexivity]. cbn [In].
        intros [H|[H|[H|[H|[H|[H|[]]]]]]]; injection H as <-; intuition discriminate.
      - exists []. split; [unfold asks_for; right; right; right; split; [cbn; intuition discriminate|reflexivity]|]. cbn. now destruct (keys rs). }
    destruct K as (d & A & ->). destruct IH as [(a & x & b & ds & -> & X & Na & F & K)|(ds & Na & F & K)].
    + left. exists (r :: a), x, b, (d :: ds). rewrite K. repeat split; auto. intros y [<-|Y]; auto.
    + right. exists (d :: ds). rewrite K. repeat split; auto. intros y [<-|Y]; auto.
Qed.
Lemma burst_thm : forall rs, (forall r, In r rs -> length r <> 1%nat) -> keys rs = ([], false).
Proof.
  induction rs as [|r rs IH]; intros H; [reflexivity|]. cbn [keys]. rewrite IH by (intros; apply H; now right).
  pose proof (H r (or_introl eq_refl)). destruct r as [|k [|k2 r]]; try reflexivity. cbn in *. lia.
Qed.

(** ** Threads *)
Definition closes (sys : system) (pc : nat) : nat := match sys with Windows => if (pc <? 12)%nat then pc - 8 else pc - 9 | Posix _ => pc - 8 end.
Definition inv (sys : system) (g : prog) : Prop :=
  (g_main g <=? 13)%nat = true /\
  (g_xcp g = if (g_main g <? 3)%nat then Unborn else Running) /\
  (match sys with
   | Posix _ => if (g_main g <? 2)%nat then g_tl g = Unborn else g_tl g = Fresh \/ g_tl g = Running
   | Windows => if (5 <=? g_main g)%nat then g_tl g = Gone else if (g_main g <? 2)%nat then g_tl g = Unborn else True
   end) /\
  (if (4 <=? g_main g)%nat then g_ui g = Gone else if (g_main g =? 0)%nat then g_ui g = Unborn else True) /\
  (g_flag g = (5 <? g_main g)%nat) /\
  closed_down g = firstn (closes sys (g_main g)) (plan sys) /\
  match sys with
  | Posix false => if (g_main g <? 7)%nat then g_end g = None else g_main g = 7%nat /\ g_end g = Some Killed
  | _ => g_end g = if (g_main g <? 13)%nat then None else Some Exited
  end.
Lemma inv_start : forall sys, inv sys start.
Proof. intros [|[|]]; repeat split; auto; intros; cbn in *; lia. Qed.
Lemma closed_does : forall d g, closed_down (does d g) = closed_down g ++ (if closing d then [d] else []).
Proof. intros d g. unfold closed_down. cbn [does g_deeds]. rewrite filter_app. reflexivity. Qed.


Lemma inv_move : forall sys q t g, inv sys g -> inv sys (move sys q t g).
Proof.
  intros sys q t g I. unfold move. destruct (g_end g) eqn:E; [exact I|].
  destruct g as [pc ui tl xcp ca fl en de]. cbn [g_end] in E. subst en. unfold inv, closed_down in *. cbn [g_main g_ui g_tl g_xcp g_cancel g_flag g_end g_deeds] in *.
  destruct I as (I1 & I2 & I3 & I4 & I6 & I7 & I8). subst xcp fl. destruct t.
  - destruct pc as [|[|[|[|[|[|[|[|[|[|[|[|[|pc]]]]]]]]]]]]]; destruct sys as [|[|]]; cbn in I8; try discriminate; try (destruct I8; discriminate); cbn in I3, I4, I7;
      cbn [main_step g_main g_ui g_tl g_xcp g_cancel g_flag g_end g_deeds]; try subst ui; try subst tl;
      try (destruct ui); try (destruct I3 as [-> | ->]); cbn; rewrite ?filter_app, ?I7; cbn; repeat split; auto.
    all: cbn in I1; destruct pc; cbn in I1; discriminate.
  - destruct ui; [|destruct sys| |]; try destruct q; cbn -[firstn closes plan]; rewrite ?filter_app; cbn -[firstn closes plan]; rewrite ?app_nil_r; repeat split; auto;
      destruct pc as [|[|[|[|pc]]]]; cbn in I4 |- *; auto; discriminate.
  - destruct tl; cbn -[firstn closes plan]; rewrite ?filter_app; cbn -[firstn closes plan]; rewrite ?app_nil_r; repeat split; auto.
    destruct sys as [|b]; destruct pc as [|[|[|[|[|pc]]]]]; cbn in I3 |- *; auto; discriminate.
  - destruct (pc <? 3)%nat eqn:P; cbn -[firstn closes plan Nat.ltb]; rewrite ?filter_app; cbn -[firstn closes plan Nat.ltb]; rewrite ?app_nil_r; repeat split; auto; now rewrite P.
Qed.
Lemma inv_execute : forall sys l g, inv sys g -> inv sys (execute sys l g).
Proof. intros sys l. induction l as [|[t q] l IH]; intros g I; [exact I|]. apply IH, inv_move, I. Qed.

(** Once the user has quit, the main thread gets on. *)
Lemma gets_on : forall sys q t g, inv sys g -> g_ui g = Gone -> g_end g = None ->
  g_ui (move sys q t g) = Gone /\ (match t with Main => S (g_main g) | _ => g_main g end <= g_main (move sys q t g))%nat.
Proof.
  intros sys q t g I U E. unfold move. rewrite E. destruct I as (I1 & _ & _ & I4 & _ & _ & I8).
  destruct g as [pc ui tl xcp ca fl en de]. cbn [g_main g_ui g_tl g_xcp g_cancel g_flag g_end g_deeds] in *. subst ui en. destruct t.
  - do 13 (destruct pc as [|pc]; [cbn [main_step g_main g_ui g_tl g_xcp g_cancel g_flag g_end g_deeds]; destruct sys as [|[|]]; try destruct tl; try destruct xcp; try destruct fl; split; cbn; auto; first [lia|cbn in I4; congruence]|]).
    exfalso. destruct pc; [|cbn in I1; discriminate]. destruct sys as [|[|]]; cbn in I8; try discriminate. destruct I8; discriminate.
  - split; [reflexivity|]. cbn. lia.
  - destruct tl; split; cbn; auto; lia.
  - destruct xcp; split; cbn; auto; lia.
Qed.
Lemma ended_stays : forall sys l g, g_end g <> None -> execute sys l g = g.
Proof.
  intros sys l. induction l as [|[t q] l IH]; intros g E; [reflexivity|]. cbn [execute]. assert (M : move sys q t g = g) by (unfold move; destruct (g_end g); congruence).
  rewrite M. now apply IH.
Qed.
Lemma progress : forall sys l g, inv sys g -> g_ui g = Gone -> g_end (execute sys l g) = None -> (g_main g + runs_main l <= g_main (execute sys l g))%nat.
Proof.
  intros sys l. induction l as [|[t q] l IH]; intros g I U E; [cbn; lia|]. cbn [execute] in *.
  destruct (g_end g) eqn:En.
  { assert (M : move sys q t g = g) by (unfold move; rewrite En; reflexivity). rewrite M, ended_stays in E by congruence. congruence. }
  destruct (gets_on sys q t g I U En) as (U1 & L). specialize (IH _ (inv_move sys q t g I) U1 E).
  unfold runs_main in *. cbn [filter fst]. destruct t; cbn [length]; lia.
Qed.
Lemma ends_thm : forall sys l g, inv sys g -> g_ui g = Gone -> (13 <= runs_main l)%nat -> g_end (execute sys l g) <> None.
Proof.
  intros sys l g I U L E. pose proof (progress sys l g I U E) as P. destruct (inv_execute sys l g I) as (J1 & _ & _ & _ & _ & _ & J8).
  assert (G : g_main (execute sys l g) = 13%nat) by (apply Nat.leb_le in J1; lia). rewrite G in J8.
  destruct sys as [|[|]]; cbn in J8; try congruence. destruct J8; discriminate.
Qed.

Lemma killed_thm : forall l, let g := execute (Posix false) l start in
  closed_down g = [] /\ g_end g <> Some Exited /\ (g_ui g = Gone -> forall l2, (13 <= runs_main l2)%nat -> g_end (execute (Posix false) l2 g) = Some Killed).
Proof.
  intros l g. pose proof (inv_execute (Posix false) l start (inv_start _)) as I. fold g in I.
  assert (A : forall h, inv (Posix false) h -> closed_down h = [] /\ g_end h <> Some Exited).
  { intros h (_ & _ & _ & _ & _ & J7 & J8). rewrite J7. destruct (g_main h <? 7)%nat eqn:L.
    - rewrite J8. split; [|discriminate]. unfold closes. replace (g_main h - 8)%nat with 0%nat by lia. reflexivity.
    - destruct J8 as (-> & ->). split; [reflexivity|discriminate]. }
  destruct (A g I) as (A1 & A2). split; [exact A1|]. split; [exact A2|]. intros U l2 L.
  pose proof (ends_thm (Posix false) l2 g I U L) as E. destruct (A _ (inv_execute (Posix false) l2 g I)) as (_ & B).
  destruct (g_end (execute (Posix false) l2 g)) as [[|]|]; congruence.
Qed.
Lemma orderly_thm : forall sys l, sys <> Posix false -> let g := execute sys l start in
  (g_end g = Some Exited -> closed_down g = plan sys) /\ g_end g <> Some Killed /\
  (g_ui g = Gone -> forall l2, (13 <= runs_main l2)%nat -> g_end (execute sys l2 g) = Some Exited).
Proof.
  intros sys l Hs g. pose proof (inv_execute sys l start (inv_start _)) as I. fold g in I.
  assert (A : forall h, inv sys h -> (g_end h = Some Exited -> closed_down h = plan sys) /\ g_end h <> Some Killed).
  { intros h (J1 & _ & _ & _ & _ & J7 & J8). rewrite J7. destruct (g_main h <? 13)%nat eqn:L.
    - assert (E : g_end h = None) by (destruct sys as [|[|]]; try congruence). rewrite E. split; discriminate.
    - assert (g_main h = 13%nat) as -> by (apply Nat.leb_le in J1; lia).
      assert (E : g_end h = Some Exited) by (destruct sys as [|[|]]; try congruence). rewrite E. split; [|discriminate]. intros _. destruct sys; reflexivity. }
  destruct (A g I) as (A1 & A2). split; [exact A1|]. split; [exact A2|]. intros U l2 L.
  pose proof (ends_thm sys l2 g I U L) as E. destruct (A _ (inv_execute sys l2 g I)) as (_ & B).
  destruct (g_end (execute sys l2 g)) as [[|]|]; congruence.
Qed.
Lemma late_thm : forall sys l q, let g := execute sys l start in In FlsDeInit (g_deeds g) -> g_end g = None ->
  g_deeds (move sys q Xcp g) = g_deeds g ++ [SlaveRuns] /\
  match sys with
  | Windows => g_tl g = Gone
  | Posix _ => g_deeds (move sys q Tl (move sys q Tl g)) = g_deeds g ++ (match g_tl g with Fresh => [TransportRuns] | _ => [TransportRuns; TransportRuns] end)
  end.
Proof.
  intros sys l q g D E. destruct (inv_execute sys l start (inv_start _)) as (J1 & J2 & J3 & _ & _ & J7 & _). fold g in J1, J2, J3, J7.
  assert (P : (8 < g_main g)%nat).
  { destruct (Nat.lt_ge_cases 8 (g_main g)) as [|P]; [assumption|exfalso]. assert (H : In FlsDeInit (closed_down g)) by (apply filter_In; auto).
    rewrite J7 in H. replace (closes sys (g_main g)) with 0%nat in H; [exact H|]. unfold closes. destruct sys; [replace (g_main g <? 12)%nat with true by lia|]; lia. }
  replace (g_main g <? 3)%nat with false in J2 by lia.
  split; [unfold move; rewrite E, J2; reflexivity|]. destruct sys as [|b].
  - replace (5 <=? g_main g)%nat with true in J3 by lia. exact J3.
  - replace (g_main g <? 2)%nat with false in J3 by lia. clear - J3 E. clearbody g. destruct g as [pc ui tl xcp ca fl en de]. cbn [g_main g_ui g_tl g_xcp g_cancel g_flag g_end g_deeds] in *. subst en. destruct J3 as [-> | ->]; [reflexivity|]. cbn. now rewrite <- app_assoc.
Qed.
Lemma raw_thm : forall b l, let g := execute (Posix b) l start in g_ui g = Running \/ g_ui g = Gone -> In RawMode (g_deeds g).
Proof.
  intros b l. assert (G : forall l g, (g_ui g = Running \/ g_ui g = Gone -> In RawMode (g_deeds g)) ->
    let h := execute (Posix b) l g in g_ui h = Running \/ g_ui h = Gone -> In RawMode (g_deeds h)).
  2:{ apply G. cbn. intros [H|H]; discriminate. }
  clear l. induction l as [|[t q] l IH]; intros g H; [exact H|]. cbn [execute]. apply IH. clear IH. unfold move. destruct (g_end g) eqn:E; [exact H|].
  destruct g as [pc ui tl xcp ca fl en de]. cbn [g_main g_ui g_tl g_xcp g_cancel g_flag g_end g_deeds] in *. subst en. destruct t.
  - do 13 (destruct pc as [|pc]; [cbn [main_step g_main g_ui g_tl g_xcp g_cancel g_flag g_end g_deeds]; try destruct ui; try destruct b; try destruct tl; try destruct xcp; try destruct fl;
      cbn; intros X; rewrite ?in_app_iff; first [destruct X; discriminate|apply H; exact X|left; apply H; exact X]|]). exact H.
  - destruct ui; try destruct q; cbn; intros X; rewrite ?in_app_iff; first [destruct X; discriminate|apply H; exact X|apply H; now left|right; now left].
  - destruct tl; cbn; intros X; rewrite ?in_app_iff; first [apply H; exact X|left; apply H; exact X].
  - destruct xcp; cbn; intros X; rewrite ?in_app_iff; first [apply H; exact X|left; apply H; exact X].
Qed.

Lemma killed_raw_thm : forall l, let g := execute (Posix false) l start in
  closed_down g = [] /\ g_end g <> Some Exited /\
  (g_ui g = Gone -> In RawMode (g_deeds g) /\ forall l2, (13 <= runs_main l2)%nat -> g_end (execute (Posix false) l2 g) = Some Killed).
Proof. intros l g. destruct (killed_thm l) as (A & B & C). repeat split; auto. apply (raw_thm false l). now right. Qed.
