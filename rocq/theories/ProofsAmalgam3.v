(** The one-file version of the sources. *)
From Coq Require Import NArith ZArith List Bool Ascii String Relations Lia ZifyBool ZifyNat ZifyN.
From Verif Require Import Options Amalgam SpecAmalgam ProofsAmalgam ProofsAmalgam2.
Import ListNotations.
Open Scope N_scope.
Open Scope list_scope.

(** ** Entries and headers *)

Definition header_for (h : host) (f : file) : header :=
  let e := entry_of f in Header (en_path e) (List.concat (en_kept e)) (map (inc_path h) (en_incs e)).
Theorem header_exists h f : header_of h f (header_for h f).
Proof.
  destruct (doc_exists (fl_text f)) as (d & Hd & E). exists d, (nameds (doc_body d)).
  split; auto. split; auto. split; [apply named_is|].
  unfold header_for, entry_of. rewrite E, scan_doc by auto. reflexivity.
Qed.
Theorem header_unique h f x : header_of h f x -> x = header_for h f.
Proof.
  intros (d & ns & Hd & E & Hn & ->). apply named_inv in Hn. subst ns.
  unfold header_for, entry_of. rewrite E, scan_doc by auto. reflexivity.
Qed.
Lemma headers_for h fs hs : Forall2 (header_of h) fs hs -> hs = map (header_for h) fs.
Proof. induction 1 as [|f x fs hs H _ IH]; [reflexivity|]. cbn [map]. rewrite <- IH, (header_unique _ _ _ H). reflexivity. Qed.

Definition to_header (h : host) (e : entry) : header :=
  Header (en_path e) (List.concat (en_kept e)) (map (inc_path h) (en_incs e)).
Lemma builder_headers h stop fs : map (to_header h) (builder h stop fs) = map (header_for h) (used h stop fs).
Proof. unfold builder. rewrite map_map. reflexivity. Qed.

(** The lines kept are lines of the file, and not empty. *)
Lemma scan_sub b ls : forall l, In l (fst (scan b ls)) -> In l ls.
Proof.
  revert b. induction ls as [|x ls IH]; intros b l; [intros []|]. cbn [scan].
  destruct (negb b && negb (marker start_word (strip x))).
  - specialize (IH false l). destruct (scan false ls). cbn [fst In] in *. tauto.
  - destruct (marker end_word (strip x)).
    + intros H. right. apply (IH false); auto.
    + specialize (IH true l). destruct (scan true ls). cbn [fst In] in *. tauto.
Qed.
Lemma lines_ne t l : In l (lines t) -> l <> [].
Proof.
  intros H. pose proof (lines_are_ok t) as K. revert K H. induction (lines t) as [|x ls IH]; [intros _ []|].
  assert (line_ok x -> x <> []) as P by (intros (y & -> & _); destruct y; discriminate).
  destruct ls as [|m ls]; intros K [<-|H].
  - destruct K as [K|[K _]]; auto.
  - destruct H.
  - destruct K; auto.
  - destruct K; auto.
Qed.
Lemma kept_empty f : List.concat (en_kept (entry_of f)) = [] <-> en_kept (entry_of f) = [].
Proof.
  split; [|intros ->; reflexivity]. unfold entry_of.
  pose proof (scan_sub false (lines (fl_text f))) as H. destruct (scan false (lines (fl_text f))) as [k n].
  cbn [fst en_kept] in *. destruct k as [|l k]; [reflexivity|].
  pose proof (lines_ne _ _ (H l (or_introl eq_refl))) as K. destruct l; [congruence|discriminate].
Qed.

(** ** Headers and graph *)

Section Headers.
Variables (h : host) (stop : list text) (fs : list file).
Hypothesis D : NoDup (map fl_path fs).
Let es := builder h stop fs.
Let hs := map (header_for h) (used h stop fs).
Let g := graph_of h es.

Lemma in_hs x : In x hs <-> exists e, In e es /\ x = to_header h e.
Proof.
  unfold hs. rewrite <- builder_headers. fold es. rewrite in_map_iff. split; intros (e & A & B); exists e; auto.
Qed.
Lemma in_es e : In e es -> exists f, In f fs /\ e = entry_of f.
Proof.
  unfold es, builder. rewrite in_map_iff. intros (f & <- & H). apply filter_In in H. exists f. tauto.
Qed.
Lemma edge_inc a b : edge g a b <-> included hs a b.
Proof.
  unfold edge, included, g, graph_of. split.
  - intros (ps & H & K). apply in_map_iff in H. destruct H as (e & E & He). inversion E; subst.
    exists (to_header h e). split; [apply in_hs; eauto|]. split; auto.
  - intros (x & H & <- & K). apply in_hs in H. destruct H as (e & He & ->). cbn [hd_path hd_incs to_header] in *.
    exists (map (inc_path h) (en_incs e)). split; auto. apply in_map_iff. exists e. auto.
Qed.
Lemma mention_hs p : In p (mentions g) <-> mentioned hs p.
Proof.
  unfold mentions, mentioned, g, graph_of. rewrite in_flat_map. split.
  - intros ([k ps] & H & K). apply in_map_iff in H. destruct H as (e & E & He). inversion E; subst.
    exists (to_header h e). split; [apply in_hs; eauto|]. cbn [fst snd In] in K. exact K.
  - intros (x & H & K). apply in_hs in H. destruct H as (e & He & ->). cbn [hd_path hd_incs to_header] in *.
    exists (en_path e, map (inc_path h) (en_incs e)). split; [apply in_map_iff; exists e; auto|]. exact K.
Qed.
Lemma good_ordered o : good g o -> ordered hs o.
Proof.
  intros (H1 & H2 & H3). split; auto. split; [intros p; rewrite H2; apply mention_hs|].
  intros a b l1 l2 E K. apply edge_inc in K. eapply H3; eauto.
Qed.
Lemma trans_edge a b : clos_trans _ (edge g) a b <-> clos_trans _ (included hs) a b.
Proof.
  split; (induction 1 as [a b H|a b c _ IH1 _ IH2]; [apply t_step, edge_inc, H|eapply t_trans; eauto]).
Qed.
Lemma es_nodup : NoDup (map en_path es).
Proof.
  unfold es, builder. rewrite map_map.
  replace (map (fun x => en_path (entry_of x)) (filter (fun f => negb (stopped h stop f)) fs))
    with (map fl_path (filter (fun f => negb (stopped h stop f)) fs))
    by (apply map_ext; intros f; unfold entry_of; destruct (scan _ _); reflexivity).
  clear es hs g. induction fs as [|f l IH]; [constructor|]. cbn [map] in D. inversion D as [|? ? N D']; subst.
  cbn [filter]. destruct (negb (stopped h stop f)); [|auto]. cbn [map]. constructor; [|auto].
  rewrite in_map_iff in *. intros (y & E & K). apply filter_In in K. apply N. exists y. tauto.
Qed.
Lemma kept_has p : match kept_text es p with Some t => has_text hs p t | None => forall t, ~ has_text hs p t end.
Proof.
  pose proof es_nodup as ND.
  assert (forall t, has_text hs p t <-> exists e, In e es /\ en_path e = p /\ List.concat (en_kept e) = t /\ t <> []) as HT.
  { intros t. unfold has_text. split.
    - intros (x & H & E1 & E2 & N). apply in_hs in H. destruct H as (e & He & ->). exists e. auto.
    - intros (e & He & E1 & E2 & N). exists (to_header h e). split; [apply in_hs; eauto|auto]. }
  assert (forall e, In e es -> (List.concat (en_kept e) = [] <-> en_kept e = [])) as HK.
  { intros e He. apply in_es in He. destruct He as (f & _ & ->). apply kept_empty. }
  assert (match kept_text es p with Some t => exists e, In e es /\ en_path e = p /\ List.concat (en_kept e) = t /\ t <> []
          | None => forall t, ~ exists e, In e es /\ en_path e = p /\ List.concat (en_kept e) = t /\ t <> [] end) as G.
  { clearbody es. clear HT hs g D. induction es as [|e l IH]; cbn [kept_text].
    - intros t (e & [] & _).
    - cbn [map] in ND. inversion ND as [|? ? N ND']; subst. destruct (path_dec (en_path e) p) as [E|E].
      + pose proof (HK e (or_introl eq_refl)) as K. destruct (en_kept e) as [|x k] eqn:Ek.
        * intros t (e' & [<-|H] & E1 & E2 & Nt); [rewrite Ek in E2; auto|].
          apply N. rewrite E, <- E1. apply in_map. exact H.
        * exists e. split; [left; auto|]. split; auto. rewrite Ek. split; [reflexivity|]. intros J. apply K in J. discriminate.
      + specialize (IH ND' (fun e' H => HK e' (or_intror H))). destruct (kept_text l p) as [t|].
        * destruct IH as (e' & H & J). exists e'. split; [right; auto|exact J].
        * intros t (e' & [<-|H] & J); [destruct J; auto|]. apply (IH t). exists e'. auto. }
  destruct (kept_text es p) as [t|]; [apply HT, G|]. intros t K. apply HT in K. apply (G t K).
Qed.

Lemma put_spec os : forall t,
  match put_headers es os t with
  | inl u => exists ts, Forall2 (has_text hs) os ts /\ u = t ++ joined os ts
  | inr (p, u) => exists os1 os2 ts, os = os1 ++ p :: os2 /\ Forall2 (has_text hs) os1 ts
      /\ (forall z, ~ has_text hs p z) /\ u = t ++ joined os1 ts ++ banner p
  end.
Proof.
  induction os as [|p os IH]; intros t; cbn [put_headers].
  - exists []. split; [constructor|]. unfold joined. cbn. rewrite app_nil_r. reflexivity.
  - pose proof (kept_has p) as K. destruct (kept_text es p) as [k|].
    + specialize (IH ((t ++ banner p) ++ k)). destruct (put_headers es os _) as [u|[q u]].
      * destruct IH as (ts & H & ->). exists (k :: ts). split; [constructor; auto|].
        unfold joined. cbn [combine map List.concat fst snd]. unfold piece. rewrite <- !app_assoc. reflexivity.
      * destruct IH as (o1 & o2 & ts & -> & H & N & ->). exists (p :: o1), o2, (k :: ts).
        split; [reflexivity|]. split; [constructor; auto|]. split; auto.
        unfold joined. cbn [combine map List.concat fst snd]. unfold piece. rewrite <- !app_assoc. reflexivity.
    + exists [], os, []. split; [reflexivity|]. split; [constructor|]. split; auto.
Qed.
End Headers.

Lemma pieces_spec h stop fs : pieces (map (header_for h) (used h stop fs)) (List.concat (map put_source (builder h stop fs))).
Proof.
  unfold builder. change (fun f => negb (stopped h stop f)) with (fun f => negb (listed h stop f)). fold (used h stop fs).
  induction (used h stop fs) as [|f l IH]; [constructor|]. cbn [map List.concat].
  pose proof (kept_empty f) as K. unfold put_source. destruct (en_kept (entry_of f)) as [|x k] eqn:E.
  - cbn [app]. apply pieces_empty; auto. unfold header_for. cbn [hd_text]. rewrite E. reflexivity.
  - pose proof (pieces_text (header_for h f) (map (header_for h) l)) as P.
    assert (hd_text (header_for h f) = List.concat (x :: k)) as T by (unfold header_for; cbn [hd_text]; rewrite E; reflexivity).
    rewrite <- T. change (en_path (entry_of f)) with (hd_path (header_for h f)). apply P; auto. rewrite T. intros J. apply K in J. discriminate.
Qed.

Theorem amalgam_thm h incs srcs hs ss : NoDup (map fl_path incs) ->
  Forall2 (header_of h) (used h inc_stop incs) hs -> Forall2 (header_of h) (used h src_stop srcs) ss ->
  outcome hs ss (amalgam h incs srcs).
Proof.
  intros D Hh Hs. apply headers_for in Hh, Hs. subst. unfold amalgam.
  pose proof (static_thm (graph_of h (builder h inc_stop incs))) as S.
  destruct (static_order _) as [os|] eqn:EO.
  - pose proof (put_spec h inc_stop incs D os []) as P. destruct (put_headers _ os []) as [t|[p t]].
    + destruct P as (ts & H & ->). apply oc_written; auto.
      * apply good_ordered, S.
      * apply pieces_spec.
    + destruct P as (o1 & o2 & ts & -> & H & N & ->). eapply oc_failed; eauto. apply good_ordered, S.
  - destruct S as (p & S). apply oc_cyclic. exists p. apply trans_edge. exact S.
Qed.

(** ** Which outcome *)

Lemma included_mentioned hs a b : included hs a b -> mentioned hs a /\ mentioned hs b.
Proof. intros (x & H & <- & K). split; exists x; auto. Qed.
Lemma ordered_trans hs o : ordered hs o -> forall a b, clos_trans _ (included hs) a b ->
  forall l1 l2, o = l1 ++ b :: l2 -> In a l1.
Proof.
  intros (H1 & H2 & H3) a b H. apply clos_trans_tn1 in H. induction H as [b H|b c H K IH]; intros l1 l2 E.
  - eapply H3; eauto.
  - pose proof (H3 _ _ _ _ E H) as J. apply in_split in J. destruct J as (m1 & m2 & ->).
    rewrite <- app_assoc in E. cbn [app] in E. apply in_or_app. left. eapply IH. exact E.
Qed.
Lemma ordered_acyclic hs o : ordered hs o -> ~ cyclic hs.
Proof.
  intros G (p & H). pose proof G as (H1 & H2 & H3).
  assert (In p o) as K.
  { apply H2. apply clos_trans_tn1 in H. inversion H; subst; eapply included_mentioned; eauto. }
  apply in_split in K. destruct K as (l1 & l2 & ->).
  pose proof (ordered_trans _ _ G _ _ H l1 l2 eq_refl) as J.
  apply (NoDup_remove_2 _ _ _ H1). apply in_or_app. auto.
Qed.
Lemma forall2_left {A B} (R : A -> B -> Prop) l m x : Forall2 R l m -> In x l -> exists y, In y m /\ R x y.
Proof. induction 1 as [|a b l m H _ IH]; intros []; [subst; exists b; cbn; auto|]. destruct IH as (y & ? & ?); auto. exists y; cbn; auto. Qed.

Theorem which_thm h incs srcs hs : NoDup (map fl_path incs) -> Forall2 (header_of h) (used h inc_stop incs) hs ->
  (amalgam h incs srcs = Cyclic <-> cyclic hs)
  /\ ((exists t, amalgam h incs srcs = Written t) <-> ~ cyclic hs /\ forall p, mentioned hs p -> exists t, has_text hs p t).
Proof.
  intros D Hh.
  assert (Forall2 (header_of h) (used h src_stop srcs) (map (header_for h) (used h src_stop srcs))) as Hs.
  { induction (used h src_stop srcs); cbn [map]; constructor; auto. apply header_exists. }
  pose proof (amalgam_thm h incs srcs hs _ D Hh Hs) as O. inversion O as [os ts u A B C E|A E|os p os' ts A B C E]; clear O.
  - pose proof (ordered_acyclic _ _ A) as N. split; [split; [discriminate|tauto]|]. split; [|eauto]. intros _.
    split; auto. intros p Hp. apply A in Hp. destruct (forall2_left _ _ _ _ B Hp) as (t & _ & K). eauto.
  - split; [tauto|]. split; [intros (t & K); discriminate|tauto].
  - pose proof (ordered_acyclic _ _ A) as N. split; [split; [discriminate|tauto]|].
    split; [intros (t & K); discriminate|]. intros [_ K].
    destruct (K p) as (t & Ht); [|exfalso; exact (C t Ht)]. apply A. apply in_or_app. right; left; auto.
Qed.

(** ** Lines lost *)

Lemma lines_ok_app a b : b <> [] -> (lines_ok (a ++ b) <-> (forall l, In l a -> line_ok l) /\ lines_ok b).
Proof.
  intros N. induction a as [|x a IH]; cbn [app].
  - split; [|tauto]. intros H. split; [intros ? []|auto].
  - destruct (a ++ b) as [|y r] eqn:E; [exfalso; destruct a; [auto|discriminate]|].
    cbn [lines_ok]. rewrite <- E in *. split.
    + intros [H1 H2]. assert (lines_ok (a ++ b)) as H by (rewrite E in *; exact H2).
      apply IH in H. destruct H as [H3 H4]. split; auto. intros l [<-|K]; auto.
    + intros [H1 H2]. split; [apply H1; left; auto|].
      assert (lines_ok (a ++ b)) as H by (apply IH; split; auto; intros l K; apply H1; right; auto). rewrite E in H. exact H.
Qed.
Lemma adds_ok d l d' : doc_ok d -> line_ok l -> ~ marks end_word l -> adds_line d l d' -> doc_ok d'.
Proof.
  intros (H1 & H2 & H3 & H4) Hl Hm (ss & s & ss' & b & b' & E1 & E2 & ->).
  split; [|split; [|split; auto]].
  - unfold doc_lines in *. cbn [dc_sections dc_after dc_rest]. rewrite E1 in H1. rewrite map_app, concat_app in H1. rewrite map_app, concat_app.
    cbn [map List.concat] in H1. cbn [map List.concat]. unfold sec_lines at 2 in H1. unfold sec_lines at 2. cbn [sc_before sc_open sc_body sc_close].
    rewrite E2 in H1. rewrite <- !app_assoc in H1. rewrite <- !app_assoc. cbn [app] in H1. cbn [app]. rewrite <- ?app_assoc in H1. rewrite <- ?app_assoc.
    set (A := List.concat (map sec_lines ss)) in *. set (Z := sc_close s :: List.concat (map sec_lines ss') ++ dc_after d ++ rest_lines (dc_rest d)).
    change (([sc_close s] ++ List.concat (map sec_lines ss')) ++ dc_after d ++ rest_lines (dc_rest d)) with Z in *.
    assert (Z <> []) as NZ by discriminate.
    assert (lines_ok ((A ++ sc_before s ++ sc_open s :: b) ++ (b' ++ Z))) as H.
    { rewrite <- !app_assoc. cbn [app]. exact H1. }
    assert (b' ++ Z <> []) as N1 by (destruct b'; discriminate).
    assert (lines_ok ((A ++ sc_before s ++ sc_open s :: b) ++ (l :: b' ++ Z))) as G.
    { apply lines_ok_app; [discriminate|]. apply lines_ok_app in H; auto. destruct H as [K1 K2]. split; auto.
      change (l :: b' ++ Z) with ([l] ++ (b' ++ Z)). apply lines_ok_app; auto. split; auto. intros x [<-|[]]; auto. }
    rewrite <- !app_assoc in G. cbn [app] in G. exact G.
  - cbn [dc_sections]. intros x Hx. apply in_app_iff in Hx. destruct Hx as [Hx|[<-|Hx]].
    + apply H2. rewrite E1. apply in_or_app. auto.
    + destruct (H2 s) as (A1 & A2 & A3 & A4); [rewrite E1; apply in_or_app; right; left; auto|].
      split; auto. split; auto. cbn [sc_body sc_close]. split; auto. intros y Hy. apply in_app_iff in Hy.
      destruct Hy as [Hy|[<-|Hy]]; auto; apply A3; rewrite E2; apply in_or_app; auto.
    + apply H2. rewrite E1. apply in_or_app. right; right; auto.
Qed.
Lemma adds_same p d l d' : doc_ok d -> line_ok l -> ~ marks end_word l -> (forall n, ~ includes_file l n) -> adds_line d l d' ->
  entry_of (File p (List.concat (doc_lines d'))) = entry_of (File p (List.concat (doc_lines d))).
Proof.
  intros Hd Hl Hm Hi Ha. pose proof (adds_ok _ _ _ Hd Hl Hm Ha) as Hd'.
  unfold entry_of. cbn [fl_text fl_path]. rewrite !scan_doc by auto. clear Hd Hd'.
  destruct Ha as (ss & s & ss' & b & b' & E1 & E2 & ->). unfold doc_text, doc_body. cbn [dc_sections dc_after dc_rest].
  rewrite E1, !map_app. cbn [map sc_before sc_body]. rewrite E2. f_equal.
  rewrite !concat_app. cbn [List.concat]. rewrite !nameds_app. cbn [nameds].
  destruct (include (strip l)) as [n|] eqn:K; [exfalso; apply (Hi n), includes_iff; auto|]. reflexivity.
Qed.
Lemma builder_same h stop f f' a b : fl_path f = fl_path f' -> entry_of f = entry_of f' ->
  builder h stop (a ++ f :: b) = builder h stop (a ++ f' :: b).
Proof.
  intros E1 E2. unfold builder. rewrite !filter_app, !map_app. f_equal. cbn [filter].
  assert (stopped h stop f = stopped h stop f') as -> by (unfold stopped; rewrite E1; reflexivity).
  destruct (stopped h stop f'); cbn [negb map]; [reflexivity|]. rewrite E2. reflexivity.
Qed.
Theorem lost_thm h p d l d' a b others : doc_ok d -> line_ok l -> ~ marks end_word l -> (forall n, ~ includes_file l n) -> adds_line d l d' ->
  amalgam h (a ++ File p (List.concat (doc_lines d')) :: b) others = amalgam h (a ++ File p (List.concat (doc_lines d)) :: b) others
  /\ amalgam h others (a ++ File p (List.concat (doc_lines d')) :: b) = amalgam h others (a ++ File p (List.concat (doc_lines d)) :: b).
Proof.
  intros Hd Hl Hm Hi Ha. pose proof (adds_same p _ _ _ Hd Hl Hm Hi Ha) as E. unfold amalgam.
  set (f := File p (List.concat (doc_lines d))) in *. set (f' := File p (List.concat (doc_lines d'))) in *.
  rewrite (builder_same h inc_stop f' f a b eq_refl E), (builder_same h src_stop f' f a b eq_refl E). split; reflexivity.
Qed.

(** ** What is in the file written *)

Lemma within_app a u v : within a u \/ within a v -> within a (u ++ v).
Proof.
  intros [(x & y & ->)|(x & y & ->)].
  - exists x, (y ++ v). rewrite <- !app_assoc. reflexivity.
  - exists (u ++ x), y. rewrite <- !app_assoc. reflexivity.
Qed.
Lemma within_refl a : within a a. Proof. exists [], []. rewrite app_nil_r. reflexivity. Qed.
Lemma joined_within hs x os ts : (forall y, In y hs -> hd_path y = hd_path x -> y = x) ->
  Forall2 (has_text hs) os ts -> In (hd_path x) os -> within (piece (hd_path x) (hd_text x)) (joined os ts).
Proof.
  intros U. induction 1 as [|p t os ts H _ IH]; intros K; [destruct K|].
  unfold joined. cbn [combine map List.concat fst snd]. apply within_app. destruct K as [->|K].
  - left. destruct H as (y & H1 & H2 & H3 & _). rewrite <- H3, (U y H1 H2). apply within_refl.
  - right. apply IH. exact K.
Qed.
Lemma pieces_within ss u x : pieces ss u -> In x ss -> hd_text x <> [] -> within (piece (hd_path x) (hd_text x)) u.
Proof.
  induction 1 as [|y l t E _ IH|y l t N _ IH]; intros K NX; [destruct K| |].
  - destruct K as [->|K]; [congruence|auto].
  - apply within_app. destruct K as [->|K]; [left; apply within_refl|right; auto].
Qed.
Theorem kept_thm h incs srcs t f x : NoDup (map fl_path incs) -> amalgam h incs srcs = Written t ->
  (In f (used h inc_stop incs) \/ In f (used h src_stop srcs)) -> header_of h f x -> hd_text x <> [] ->
  within (piece (hd_path x) (hd_text x)) t.
Proof.
  intros D W Hf Hx Nx. apply header_unique in Hx. subst x.
  assert (forall fs, Forall2 (header_of h) fs (map (header_for h) fs)) as F.
  { induction fs; cbn [map]; constructor; auto. apply header_exists. }
  pose proof (amalgam_thm h incs srcs _ _ D (F _) (F _)) as O. rewrite W in O. inversion O as [os ts u A B C E| |]; subst.
  apply within_app. destruct Hf as [Hf|Hf].
  - left. eapply joined_within; [|exact B|].
    + intros y Hy E. apply in_map_iff in Hy. destruct Hy as (f' & <- & Hf').
      assert (fl_path f' = fl_path f) as E'.
      { unfold header_for, entry_of in E. destruct (scan _ _), (scan _ _). exact E. }
      f_equal. clear - D E' Hf Hf'. unfold used in *. apply filter_In in Hf, Hf'. destruct Hf as [Hf _], Hf' as [Hf' _].
      induction incs as [|z l IH]; [destruct Hf|]. cbn [map] in D. inversion D as [|? ? N D']; subst.
      destruct Hf as [->|Hf], Hf' as [->|Hf']; auto; exfalso; apply N; [rewrite <- E'|rewrite E']; apply in_map; auto.
    + apply A. exists (header_for h f). split; [apply in_map; auto|auto].
  - right. eapply pieces_within; eauto. apply in_map; auto.
Qed.

(** ** Stop lists on hosts with slashes *)

Lemma spell_slash a b r : In 47 (spell Posix (a :: b :: r)).
Proof. cbn [spell]. apply in_or_app. right. left. reflexivity. Qed.
Lemma stops_plain : forall s, In s inc_stop \/ In s src_stop -> ~ In 47 s.
Proof.
  assert (forallb (fun s => negb (existsb (N.eqb 47) s)) (inc_stop ++ src_stop) = true) as H by (vm_compute; reflexivity).
  intros s Hs K. rewrite forallb_forall in H. specialize (H s). rewrite in_app_iff in H. specialize (H Hs).
  apply negb_true_iff in H. assert (existsb (N.eqb 47) s = true) as J; [|congruence].
  apply existsb_exists. exists 47. split; auto.
Qed.
Theorem posix_used stop fs : stop = inc_stop \/ stop = src_stop ->
  (forall f, In f fs -> (2 <= List.length (fl_path f))%nat) -> used Posix stop fs = fs.
Proof.
  intros S H. unfold used. induction fs as [|f fs IH]; [reflexivity|]. cbn [filter].
  assert (listed Posix stop f = false) as ->.
  { unfold listed. destruct (in_dec (list_eq_dec N.eq_dec) (spell Posix (fl_path f)) stop) as [K|]; [|reflexivity]. exfalso.
    specialize (H f (or_introl eq_refl)). destruct (fl_path f) as [|a [|b r]]; cbn [List.length] in H; try lia.
    apply (stops_plain (spell Posix (a :: b :: r))); [destruct S; subst; auto|apply spell_slash]. }
  cbn [negb]. f_equal. apply IH. intros x Hx. apply H. right; auto.
Qed.
Theorem posix_thm incs srcs t f x : NoDup (map fl_path incs) ->
  (forall f, In f (incs ++ srcs) -> (2 <= List.length (fl_path f))%nat) ->
  amalgam Posix incs srcs = Written t -> In f (incs ++ srcs) -> header_of Posix f x -> hd_text x <> [] ->
  within (piece (hd_path x) (hd_text x)) t.
Proof.
  intros D L W Hf Hx Nx. eapply kept_thm; eauto. rewrite !posix_used; auto.
  - apply in_app_iff. exact Hf.
  - intros y Hy. apply L, in_or_app. auto.
  - intros y Hy. apply L, in_or_app. auto.
Qed.
Lemma filter_twice {A} (P : A -> bool) l : filter P (filter P l) = filter P l.
Proof. induction l as [|x l IH]; [reflexivity|]. cbn [filter]. destruct (P x) eqn:E; auto. cbn [filter]. rewrite E. congruence. Qed.
Theorem stopped_thm h incs srcs : amalgam h incs srcs = amalgam h (used h inc_stop incs) (used h src_stop srcs).
Proof.
  unfold amalgam. replace (builder h inc_stop (used h inc_stop incs)) with (builder h inc_stop incs);
    [replace (builder h src_stop (used h src_stop srcs)) with (builder h src_stop srcs); [reflexivity|]|];
    unfold builder; f_equal; unfold used;
    change (fun f => negb (listed h inc_stop f)) with (fun f => negb (stopped h inc_stop f));
    change (fun f => negb (listed h src_stop f)) with (fun f => negb (stopped h src_stop f));
    rewrite filter_twice; reflexivity.
Qed.
Theorem unique_thm h f : exists x, header_of h f x /\ forall y, header_of h f y -> y = x.
Proof. exists (header_for h f). split; [apply header_exists|]. intros y H. rewrite (header_unique _ _ _ H). reflexivity. Qed.
Lemma headers_thm h fs : exists hs, Forall2 (header_of h) fs hs.
Proof. exists (map (header_for h) fs). induction fs; cbn [map]; constructor; auto. apply header_exists. Qed.

(** ** Paths and banners *)

Lemma parts_plain h n : forallb (fun c => negb (is_sep h c)) n = true -> parts h n = [n].
Proof.
  induction n as [|c n IH]; [reflexivity|]. cbn [forallb parts]. intros H. apply andb_prop in H. destruct H as [H1 H2].
  apply negb_true_iff in H1. rewrite H1, (IH H2). reflexivity.
Qed.
Theorem path_thm h n : n <> [] -> n <> chars "." -> ~ In 47 n -> (h = Windows -> ~ In 92 n) ->
  inc_path h n = [chars ".."; chars "inc"; n].
Proof.
  intros N1 N2 N3 N4.
  assert (forallb (fun c => negb (is_sep h c)) n = true) as F.
  { apply forallb_forall. intros c Hc. apply negb_true_iff. unfold is_sep. apply orb_false_iff. split.
    - apply N.eqb_neq. intros ->. auto.
    - destruct h; [reflexivity|]. apply N.eqb_neq. intros ->. apply N4; auto. }
  unfold inc_path. rewrite (parts_plain _ _ F). destruct n as [|c n]; [congruence|].
  cbn [forallb] in F. apply andb_prop in F. destruct F as [F _]. apply negb_true_iff in F. rewrite F.
  cbn [filter]. assert (proper (c :: n) = true) as ->; [|reflexivity].
  cbn [proper]. destruct n; [|reflexivity]. apply negb_true_iff, N.eqb_neq. intros ->. apply N2. reflexivity.
Qed.
Theorem banner_thm p : ~ In 10 (last p []) -> exists a b c,
  banner p = [10] ++ (chars "//" ++ a ++ [10]) ++ (chars "//" ++ b ++ [10]) ++ (chars "//" ++ c ++ [10]) ++ [10]
  /\ ~ In 10 a /\ ~ In 10 b /\ ~ In 10 c /\ within (last p []) b.
Proof.
  intros N. exists (repeat 47 78), (center (last p []) ++ chars "//"), (repeat 47 78).
  assert (forall x n, x <> 10 -> ~ In 10 (repeat x n)) as R by (intros x n Hx H; apply repeat_spec in H; auto).
  split; [|split; [|split; [|split]]]; try (apply R; discriminate).
  - unfold banner. rewrite <- !app_assoc. reflexivity.
  - unfold center. rewrite !in_app_iff. intros [[H|[H|H]]|H]; auto; try (apply R in H; [auto|discriminate]).
    destruct H as [H|[H|[]]]; discriminate.
  - apply within_app. left. unfold center. apply within_app. right. apply within_app. left. apply within_refl.
Qed.
