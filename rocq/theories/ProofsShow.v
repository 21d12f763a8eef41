From Coq Require Import NArith ZArith List Bool Lia ZifyBool ZifyNat ZifyN.
From Verif Require Import Base Config State Queue Daq Core Spec SpecMem SpecDaq Lists Effects DaqInv Steps ProofsDaqA ProofsDaqB ProofsDaqC ProofsDaqE ProofsCks2 Show SpecShow.
Import ListNotations.
Open Scope N_scope.

(** ** The words *)
Lemma land_bit : forall a n, (N.land a (2 ^ n) =? 0) = negb (N.testbit a n).
Proof.
  intros a n. destruct (N.testbit a n) eqn:B; cbn [negb].
  - apply N.eqb_neq. intro H. assert (X : N.testbit (N.land a (2 ^ n)) n = false) by (rewrite H; apply N.bits_0).
    rewrite N.land_spec, B, N.pow2_bits_true in X. discriminate.
  - apply N.eqb_eq. apply N.bits_inj_0. intro k. rewrite N.land_spec. destruct (N.eqb_spec n k) as [<-|Nk].
    + now rewrite B.
    + rewrite N.pow2_bits_false by auto. apply andb_false_r.
Qed.
Lemma flags_say : forall m, says (flags m) m.
Proof.
  intro m. unfold says, flags. 
  rewrite (land_bit m 1 : (N.land m 0x02 =? 0) = _), (land_bit m 6 : (N.land m 0x40 =? 0) = _), (land_bit m 7 : (N.land m 0x80 =? 0) = _),
    (land_bit m 0 : (N.land m 0x01 =? 0) = _), (land_bit m 5 : (N.land m 0x20 =? 0) = _), (land_bit m 4 : (N.land m 0x10 =? 0) = _).
  destruct (N.testbit m 1), (N.testbit m 6), (N.testbit m 7), (N.testbit m 0), (N.testbit m 5), (N.testbit m 4); cbn;
    repeat split; intro H; try discriminate H; try reflexivity; auto 10; repeat (destruct H as [H|H]); try discriminate H; try contradiction H.
Qed.

(** ** Addresses and sizes of a configuration that was requested *)
Definition small1 (x : N * N) : Prop := fst x < 2 ^ 32 /\ snd x < 256.
Definition small (t : tree) : Prop := Forall (Forall (Forall small1)) t.
Lemma Forall_put : forall A (P : A -> Prop) i x (l : list A), P x -> Forall P l -> Forall P (put i x l).
Proof.
  intros A P i x l Hx H. assert (X : forall n, Forall P (firstn n l) /\ Forall P (skipn n l)).
  { intro n. apply Forall_app. now rewrite firstn_skipn. }
  unfold put. apply Forall_app. split; [apply X|]. constructor; [exact Hx|apply X].
Qed.
Lemma getN_Forall : forall A (P : A -> Prop) l i x, Forall P l -> getN l i = Some x -> P x.
Proof. intros A P l i x H G. rewrite Forall_forall in H. apply H. unfold getN in G. eapply nth_error_In; eauto. Qed.
Lemma small_entries : forall t l o es, small t -> Forall small1 es -> small (put_entries t l o es).
Proof.
  intros t l o es H He. unfold put_entries. destruct (getN t l) as [os|] eqn:G; auto.
  apply Forall_put; auto. apply Forall_put; auto. exact (getN_Forall _ _ _ _ _ H G).
Qed.
Lemma small_entry : forall t l o k x, small t -> small1 x -> small (put_entry t l o k x).
Proof.
  intros t l o k x H Hx. unfold put_entry. destruct (odt_at t l o) as [es|] eqn:G; auto.
  apply small_entries; auto. apply Forall_put; auto. unfold odt_at in G. destruct (getN t l) as [os|] eqn:G1; [|discriminate].
  exact (getN_Forall _ _ _ _ _ (getN_Forall _ _ _ _ _ H G1) G).
Qed.
Lemma small_all : forall xs t l o k, small t -> Forall small1 xs -> small (put_all t l o k xs).
Proof.
  induction xs; intros; cbn [put_all]; auto. inversion H0; subst. apply IHxs; auto. apply small_entry; auto.
Qed.

Lemma small_elements : forall c n b xs, bytes b -> elements c n b = Some xs -> Forall small1 xs.
Proof.
  induction n; intros b xs B H; cbn [elements] in H; [injection H as <-; constructor|].
  destruct b as [|x0 [|n0 [|a0 [|a1 [|a2 [|a3 [|x1 [|x2 b]]]]]]]]; try discriminate.
  destruct (elements c n b) as [ys|] eqn:E; cbn [option_map] in H; [|discriminate]. injection H as <-.
  unfold bytes in *. repeat match goal with H : Forall _ (_ :: _) |- _ => apply Forall_cons_iff in H; destruct H end.
  constructor; [|eapply IHn; eauto]. split; cbn [fst snd]; auto. apply field4_bound. unfold bytes. auto.
Qed.
Lemma small_app : forall t t', small t -> small t' -> small (t ++ t').
Proof. intros. apply Forall_app. auto. Qed.
Lemma Forall_rep : forall A (P : A -> Prop) x n, P x -> Forall P (repeat x n).
Proof. induction n; cbn [repeat]; auto. Qed.
Lemma small_request : forall c s t f t', bytes f -> requests c s t f t' -> small t -> small t'.
Proof.
  intros c s t f t' B H S. unfold requests in H. cbv zeta in H.
  repeat match type of H with
  | False => contradiction H
  | context [match ?x with _ => _ end] => destruct x; try contradiction H
  end.
  all: unfold bytes in B; repeat match goal with H : Forall _ (_ :: _) |- _ => apply Forall_cons_iff in H; destruct H end.
  all: first
    [ destruct H as (xs & He & _ & ->); apply small_all; auto; eapply small_elements; eauto; fail
    | destruct H as (_ & ->); apply small_entries; auto; apply Forall_rep; split; reflexivity
    | destruct H as (_ & ->); apply Forall_put; auto; apply Forall_rep; constructor
    | destruct H as (_ & ->); apply small_entry; auto; split; cbn [fst snd]; auto; apply field4_bound; unfold bytes; auto; fail
    | destruct H as (_ & ->); apply small_app; auto; apply Forall_rep; constructor
    | subst; constructor ].
Qed.
Lemma small_builds : forall c l s t s' t', builds c s t l s' t' -> wf_run c l -> small t -> small t'.
Proof.
  intros c l s t s' t' H. induction H; intros W S; auto; apply Forall_cons_iff in W; destruct W as ((_ & W) & Wl); apply IHbuilds; auto.
  - exact (small_request _ _ _ _ _ W H1 S).
  - constructor.
Qed.

(** ** The lines *)
Section S.
Context (c : cfg) (W : wf_cfg c) (Sm : c_max_ent c < 65536) (d : daqst) (t : tree) (fo : N -> N) (fe : N -> N -> N)
  (I : dinv c d) (R : represents_by fo fe c d t) (Sl : small t).

Definition sum1 (es : list (N * N)) : N := fold_right (fun x n => snd x + n) 0 es.
Lemma sum1_app : forall a b, sum1 (a ++ b) = sum1 a + sum1 b.
Proof. induction a; intros; cbn [app sum1 fold_right]; [reflexivity|]. change (fold_right _ 0 (a0 ++ b)) with (sum1 (a0 ++ b)). rewrite IHa. unfold sum1. lia. Qed.

Lemma skip_get : forall A (l : list A) k x r, dropN k l = x :: r -> getN l k = Some x /\ dropN (k + 1) l = r.
Proof.
  intros A l k x r H. unfold dropN, getN in *. replace (N.to_nat (k + 1)) with (1 + N.to_nat k)%nat by lia.
  revert l H. induction (N.to_nat k); intros [|y l] H; cbn in *; try discriminate; [injection H as <- <-; auto|auto].
Qed.

Lemma entries_thm : forall l o es, odt_at t l o = Some es -> forall r k total, dropN k es = r -> total + sum1 r < 2 ^ 32 ->
  show_entries c d l o (length r) k total = Ok (entries_text k r, total + sum1 r).
Proof.
  intros l o es Ho r. induction r as [|x r IH]; intros k total H B; cbn [show_entries length entries_text sum1 fold_right].
  - now rewrite N.add_0_r.
  - destruct (skip_get _ _ _ _ _ H) as (G & H').
    assert (E : entry_at t l o k = Some x) by (unfold entry_at; now rewrite Ho).
    destruct (rep_entry_index c W Sm _ _ _ _ _ _ _ _ I R E) as (E1 & _). rewrite E1. cbn [bind].
    destruct (entry_val _ _ _ (r_entry _ _ _ _ _ R _ _ _ _ E)) as (e & E2 & E3). rewrite E2. cbn [bind]. rewrite E3. cbn [bind].
    destruct x as (a, n). cbn [fst snd]. cbn [sum1 fold_right snd] in B. change (fold_right _ 0 r) with (sum1 r) in *.
    assert (Sx : small1 (a, n)).
    { destruct (odt_list _ _ _ _ Ho) as (os & H1 & H2).
      exact (getN_Forall _ _ _ _ _ (getN_Forall _ _ _ _ _ (getN_Forall _ _ _ _ _ Sl H1) H2) G). }
    destruct Sx as (Sa & Sn). cbn [fst snd] in Sa, Sn.
    rewrite (N.mod_small (total + n)) by lia. rewrite IH by (auto; lia). cbn [bind]. rewrite (N.mod_small a) by exact Sa.
    f_equal. f_equal. lia.
Qed.

Lemma drop0 : forall A (l : list A), dropN 0 l = l. Proof. reflexivity. Qed.

Lemma odts_thm : forall l os, getN t l = Some os -> forall r o total, dropN o os = r -> total + size_of r < 2 ^ 32 ->
  show_odts c d l (length r) o total = Ok (odts_text o r, total + size_of r).
Proof.
  intros l os Hl r. induction r as [|es r IH]; intros o total H B; cbn [show_odts length odts_text].
  - unfold size_of. cbn. now rewrite N.add_0_r.
  - destruct (skip_get _ _ _ _ _ H) as (G & H').
    assert (E : odt_at t l o = Some es) by (unfold odt_at; now rewrite Hl).
    destruct (rep_odt_index c W Sm _ _ _ _ _ _ _ I R E) as (E1 & _). rewrite E1. cbn [bind].
    rewrite (hdr_val _ _ _ _ (r_odt _ _ _ _ _ R _ _ _ E)). cbn [bind].
    assert (Q : size_of (es :: r) = sum1 es + size_of r) by (unfold size_of; cbn [concat]; exact (sum1_app es (concat r))).
    rewrite Q in B. unfold lenN. rewrite Nat2N.id.
    rewrite (entries_thm l o es E es 0 total (drop0 _ _)) by lia. cbn [bind].
    rewrite IH by (auto; lia). cbn [bind]. rewrite Q. f_equal. f_equal. lia.
Qed.

Lemma size_bound : forall os, Forall (Forall small1) os -> size_of os <= 255 * lenN (concat os).
Proof.
  intros os H. unfold size_of. apply Forall_concat in H. induction H as [|x l Hx H IH]; cbn [fold_right]; [lia|].
  rewrite lenN_cons. destruct Hx. lia.
Qed.

Lemma concat_get : forall A (l : list (list A)) i x, getN l i = Some x -> lenN x <= lenN (concat l).
Proof.
  intros A l i x. unfold getN. revert i. intro i. generalize (N.to_nat i). clear i. intro n. revert l.
  induction n; intros [|y l] H; cbn in H; try discriminate; cbn [concat]; rewrite lenN_app.
  - injection H as <-. lia.
  - pose proof (IHn _ H). lia.
Qed.
Lemma size_get : forall l os, getN t l = Some os -> size_of os < 2 ^ 32.
Proof.
  intros l os H. pose proof (size_bound os (getN_Forall _ _ _ _ _ Sl H)) as B.
  destruct (d_layout _ _ I) as (_ & L2 & _). rewrite (d_len _ _ I) in L2. pose proof (r_count _ _ _ _ _ R) as Rc.
  assert (X : forall A (l : list (list (list A))) i os, getN l i = Some os -> lenN (concat os) <= lenN (concat (concat l))).
  { intros A0 q i ps Hq. unfold getN in Hq. revert q Hq. induction (N.to_nat i); intros [|y q] Hq; cbn in Hq; try discriminate; cbn [concat]; rewrite concat_app, lenN_app.
    - injection Hq as <-. lia.
    - pose proof (IHn _ Hq). lia. }
  pose proof (X _ _ _ _ H). lia.
Qed.

Lemma lists_thm : forall r l, dropN l t = r ->
  show_lists c d (length r) l = Ok (lists_text (flags (d_mode d)) l (odts_before t l) r).
Proof.
  induction r as [|os r IH]; intros l H; cbn [show_lists length lists_text]; [reflexivity|].
  destruct (skip_get _ _ _ _ _ H) as (G & H').
  rewrite (hdr_val _ _ _ _ (r_list _ _ _ _ _ R _ _ G)). cbn [bind].
  rewrite (first_pid_rep c fo fe d t l W Sm I R). pose proof (getN_Some_lt _ _ _ _ G).
  destruct (N.ltb_spec l (lenN t)); [|lia]. cbn [bind]. unfold lenN at 1. rewrite Nat2N.id.
  rewrite (odts_thm l os G os 0 0 (drop0 _ _)) by (pose proof (size_get _ _ G); lia). cbn [bind].
  rewrite IH by auto. cbn [bind]. rewrite (before_S _ _ _ G). reflexivity.
Qed.
End S.

Lemma details_thm : forall c m l s0 s t, wf_cfg c -> wf_mem m -> dlc_ok c -> c_daq c = true -> c_max_ent c < 65536 ->
  boot c m = Ok s0 -> wf_run c l -> builds c s0 [] l s t ->
  show_daq c s = Ok (lists_text (flags (d_mode (s_daq s))) 0 0 t) /\ says (flags (d_mode (s_daq s))) (d_mode (s_daq s)).
Proof.
  intros c m l s0 s t W Wm D Hd Sm B Wl Bu.
  assert (R0 : reachable c m [] s0 []).
  { split; [exact W|]. split; [exact Wm|]. split; [constructor|]. exists s0. split; [exact B|reflexivity]. }
  destruct (builds_reach c m [] s0 [] [] l s t D Sm R0 (boot_empty c m s0 Hd B) Wl Bu) as ((fo & fe & R) & o' & _ & Rs).
  pose proof (i_d _ _ (reach_inv _ _ _ _ _ Rs)) as I.
  pose proof (small_builds _ _ _ _ _ _ Bu Wl (Forall_nil _)) as Sl.
  split; [|apply flags_say]. unfold show_daq. rewrite (r_lists _ _ _ _ _ R). unfold lenN. rewrite Nat2N.id.
  rewrite (lists_thm c W Sm _ t fo fe I R Sl t 0 (drop0 _ _)). reflexivity.
Qed.

(** ** The text determines the configuration *)
Lemma entries_inj : forall es es' k r r', entries_text k es ++ r = entries_text k es' ++ r' ->
  (forall n a b q, r <> LEntry n a b :: q) -> (forall n a b q, r' <> LEntry n a b :: q) -> es = es' /\ r = r'.
Proof.
  induction es as [|(a, n) es IH]; intros [|(a', n') es'] k r r' H N1 N2; cbn [entries_text app fst snd] in H.
  - auto.
  - exfalso. eapply N1. exact H.
  - exfalso. eapply N2. symmetry. exact H.
  - injection H as -> -> H. destruct (IH _ _ _ _ H N1 N2) as (-> & ->). auto.
Qed.
Lemma odts_head : forall o os x r, exists y q, odts_text o os ++ LTotal x :: r = y :: q /\ (forall n a b, y <> LEntry n a b).
Proof. intros o [|es os] x r; cbn [odts_text app]; eexists _, _; split; try reflexivity; intros; discriminate. Qed.
Lemma odts_inj : forall os os' o x x' r r', odts_text o os ++ LTotal x :: r = odts_text o os' ++ LTotal x' :: r' -> os = os' /\ r = r'.
Proof.
  induction os as [|es os IH]; intros [|es' os'] o x x' r r' H; cbn [odts_text app] in H; try discriminate.
  - injection H as _ H. auto.
  - injection H as H. rewrite <- !app_assoc in H. apply entries_inj in H.
    + destruct H as (-> & H). destruct (IH _ _ _ _ _ _ H) as (-> & ->). auto.
    + intros n a b q Q. destruct (odts_head (o + 1) os x r) as (y & q' & E & Ny). rewrite E in Q. injection Q as Q _. exact (Ny _ _ _ Q).
    + intros n a b q Q. destruct (odts_head (o + 1) os' x' r') as (y & q' & E & Ny). rewrite E in Q. injection Q as Q _. exact (Ny _ _ _ Q).
Qed.
Lemma lists_inj : forall w w' t t' l p, lists_text w l p t = lists_text w' l p t' -> t = t'.
Proof.
  intros w w'. induction t as [|os t IH]; intros [|os' t'] l p H; cbn [lists_text] in H; try discriminate; auto.
  injection H as _ H. apply odts_inj in H. destruct H as (-> & H). f_equal. eapply IH; eauto.
Qed.

(** ** XcpDaq_Info *)
Lemma info_thm : forall c s t, represents c s t -> exists b,
  daq_info c s = (b, lenN t + lenN (concat t) + lenN (concat (concat t)), c_max_ent c) /\ (b = true <-> measuring s).
Proof. intros c s t (fo & fe & R). eexists. unfold daq_info. rewrite (r_count _ _ _ _ _ R). split; [reflexivity|]. unfold measuring. tauto. Qed.

Lemma words_entries : forall es k l p w, ~ In (LList l p w) (entries_text k es).
Proof. induction es; intros k l p w H; cbn [entries_text In] in H; [exact H|]. destruct H as [H|H]; [discriminate|eapply IHes; eauto]. Qed.
Lemma words_odts : forall os o l p w, ~ In (LList l p w) (odts_text o os).
Proof.
  induction os; intros o l p w H; cbn [odts_text In] in H; [exact H|]. destruct H as [H|H]; [discriminate|]. apply in_app_or in H.
  destruct H as [H|H]; [eapply words_entries; eauto|eapply IHos; eauto].
Qed.
Lemma words_one : forall t w l0 p0 l p w', In (LList l p w') (lists_text w l0 p0 t) -> w' = w.
Proof.
  induction t; intros w l0 p0 l p w' H; cbn [lists_text In] in H; [contradiction|]. destruct H as [H|H]; [now injection H|].
  apply in_app_or in H. destruct H as [H|[H|H]]; [exfalso; eapply words_odts; eauto|discriminate|eapply IHt; eauto].
Qed.
Lemma shared_thm : forall c m l s0 s t ls, wf_cfg c -> wf_mem m -> dlc_ok c -> c_daq c = true -> c_max_ent c < 65536 ->
  boot c m = Ok s0 -> wf_run c l -> builds c s0 [] l s t -> show_daq c s = Ok ls ->
  forall l1 p1 w1 l2 p2 w2, In (LList l1 p1 w1) ls -> In (LList l2 p2 w2) ls -> w1 = w2.
Proof.
  intros c m l s0 s t ls W Wm D Hd Sm B Wl Bu H l1 p1 w1 l2 p2 w2 H1 H2.
  destruct (details_thm c m l s0 s t W Wm D Hd Sm B Wl Bu) as (E & _). rewrite E in H. injection H as <-.
  rewrite (words_one _ _ _ _ _ _ _ H1), (words_one _ _ _ _ _ _ _ H2). reflexivity.
Qed.
