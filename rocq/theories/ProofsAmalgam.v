(** Include sections of the one-file version of the sources. *)
From Coq Require Import NArith ZArith List Bool Ascii String Lia ZifyBool ZifyNat ZifyN.
From Verif Require Import Options Amalgam SpecAmalgam.
Import ListNotations.
Open Scope N_scope.
Open Scope list_scope.

(** ** Lines *)

Lemma lines_nil_inv t : lines t = [] -> t = [].
Proof. destruct t as [|c r]; [auto|]. simpl. destruct (c =? 10); [discriminate|]. destruct (lines r); discriminate. Qed.
Lemma concat_lines t : List.concat (lines t) = t.
Proof.
  induction t as [|c r IH]; [reflexivity|]. simpl. destruct (c =? 10); [simpl; congruence|].
  destruct (lines r) as [|l ls]; simpl in *; congruence.
Qed.
Lemma lines_are_ok t : lines_ok (lines t).
Proof.
  induction t as [|c r IH]; [exact I|]. cbn [lines]. destruct (c =? 10) eqn:E.
  - apply N.eqb_eq in E. subst. assert (line_ok [10]) as L by (exists []; split; [reflexivity|intros []]).
    simpl. destruct (lines r); auto.
  - apply N.eqb_neq in E. destruct (lines r) as [|l ls] eqn:El.
    + simpl. right. split; [discriminate|]. intros [H|[]]; auto.
    + assert (forall l', line_ok l' -> line_ok (c :: l')) as L.
      { intros l' (t & -> & Ht). exists (c :: t). split; [reflexivity|]. intros [H|H]; auto. }
      simpl in *. destruct ls.
      * destruct IH as [H|[H1 H2]]; [left; auto|]. right. split; [discriminate|]. intros [H|H]; auto.
      * destruct IH; auto.
Qed.
Lemma lines_app_line t r : ~ In 10 t -> lines (t ++ 10 :: r) = (t ++ [10]) :: lines r.
Proof.
  induction t as [|c t IH]; intros H; cbn [app lines].
  - reflexivity.
  - destruct (c =? 10) eqn:E; [apply N.eqb_eq in E; subst; exfalso; apply H; left; reflexivity|].
    rewrite IH; [reflexivity|]. intros K. apply H. right; auto.
Qed.
Lemma lines_short t : t <> [] -> ~ In 10 t -> lines t = [t].
Proof.
  induction t as [|c t IH]; intros H K; [congruence|]. cbn [lines].
  destruct (c =? 10) eqn:E; [apply N.eqb_eq in E; subst; exfalso; apply K; left; reflexivity|].
  destruct t as [|d t]; [reflexivity|]. rewrite IH; [reflexivity|discriminate|]. intros J. apply K. right; auto.
Qed.
Lemma lines_concat ls : lines_ok ls -> lines (List.concat ls) = ls.
Proof.
  induction ls as [|l ls IH]; intros H; [reflexivity|].
  destruct ls as [|m ls].
  - simpl. rewrite app_nil_r. destruct H as [(t & -> & Ht)|[H1 H2]]; [|apply lines_short; auto].
    rewrite lines_app_line by auto. reflexivity.
  - destruct H as [(t & -> & Ht) H]. cbn [List.concat]. rewrite <- app_assoc. cbn [app].
    rewrite lines_app_line by auto. f_equal. apply IH. exact H.
Qed.

(** ** Stripping *)

Lemma blank_ok c : blank c = true <-> In c whitespace.
Proof.
  split.
  - intros H. unfold blank in H. unfold whitespace. cbn [In]. lia.
  - intros H. unfold whitespace in H. cbn [In] in H. repeat (destruct H as [H|H]; [subst c; reflexivity|]). destruct H.
Qed.
Lemma lstrip_blanks a r : blanks a -> lstrip (a ++ r) = lstrip r.
Proof.
  induction a as [|c a IH]; intros H; [reflexivity|]. cbn [app lstrip]. rewrite (proj2 (blank_ok c) (H c (or_introl eq_refl))).
  apply IH. intros d Hd. apply H. right; auto.
Qed.
Lemma lstrip_solid c r : blank c = false -> lstrip (c :: r) = c :: r.
Proof. intros H. cbn [lstrip]. rewrite H. reflexivity. Qed.
Lemma lstrip_split t : exists a, blanks a /\ t = a ++ lstrip t.
Proof.
  induction t as [|c t (a & H & E)]; [exists []; split; [intros ? []|reflexivity]|].
  cbn [lstrip]. destruct (blank c) eqn:B.
  - exists (c :: a). split; [|cbn; congruence]. intros d [<-|Hd]; [apply blank_ok, B|auto].
  - exists []. split; [intros ? []|reflexivity].
Qed.
Lemma lstrip_snoc a c : blank c = false -> forall r, lstrip (a ++ c :: r) = lstrip (a ++ [c]) ++ r.
Proof.
  intros B r. induction a as [|d a IH]; cbn [app lstrip].
  - rewrite B. reflexivity.
  - destruct (blank d); [exact IH|]. cbn [app]. rewrite <- app_assoc. reflexivity.
Qed.
Lemma rstrip_solid x c r : blank c = false -> rstrip (x ++ c :: r) = x ++ c :: rstrip r.
Proof.
  intros B. unfold rstrip. rewrite rev_app_distr. cbn [rev]. rewrite <- app_assoc. cbn [app].
  rewrite lstrip_snoc by auto. rewrite rev_app_distr, rev_involutive. f_equal.
  destruct (lstrip_split (rev r)) as (a & Ha & E).
  assert (lstrip (rev r ++ [c]) = lstrip (rev r) ++ [c]) as ->.
  { rewrite E at 1. rewrite <- app_assoc, lstrip_blanks by auto.
    destruct (lstrip (rev r)) as [|d l] eqn:L; [apply lstrip_solid; auto|]. cbn [app].
    apply lstrip_solid. clear -L. revert d l L. generalize (rev r). intros t; induction t as [|e t IH]; intros d l; cbn [lstrip]; [discriminate|].
    destruct (blank e) eqn:B; [apply IH|intros H; inversion H; subst; auto]. }
  rewrite rev_app_distr. reflexivity.
Qed.
Lemma rstrip_split t : exists b, t = rstrip t ++ b.
Proof.
  destruct (lstrip_split (rev t)) as (a & H & E). exists (rev a). unfold rstrip.
  rewrite <- rev_app_distr, <- E, rev_involutive. reflexivity.
Qed.
Lemma strip_split t : exists a b, blanks a /\ t = a ++ strip t ++ b.
Proof.
  destruct (lstrip_split t) as (a & H & E). destruct (rstrip_split (lstrip t)) as (b & E').
  exists a, b. split; auto. unfold strip. rewrite <- E'. exact E.
Qed.
(** A solid stretch of text survives. *)
Lemma strip_keeps a c x d r : blanks a -> blank c = false -> blank d = false ->
  exists r', strip (a ++ c :: x ++ d :: r) = c :: x ++ d :: r'.
Proof.
  intros H B B'. unfold strip. rewrite lstrip_blanks, lstrip_solid by auto.
  exists (rstrip r). apply (rstrip_solid (c :: x)); auto.
Qed.

(** ** Expressions *)

Lemma literal_yes w r : literal w (w ++ r) = Some r.
Proof. induction w as [|c w IH]; [reflexivity|]. cbn [app literal]. rewrite N.eqb_refl. exact IH. Qed.
Lemma literal_inv w : forall t r, literal w t = Some r -> t = w ++ r.
Proof.
  induction w as [|c w IH]; intros [|d t] r; cbn [literal app]; try congruence.
  destruct (c =? d) eqn:E; [|discriminate]. apply N.eqb_eq in E. subst. intros H. f_equal. auto.
Qed.
Lemma spaces_yes s c r : blanks s -> s <> [] -> blank c = false -> spaces (s ++ c :: r) = Some (c :: r).
Proof.
  intros H N B. destruct s as [|d s]; [congruence|].
  assert (lstrip ((d :: s) ++ c :: r) = c :: r) as E by (rewrite lstrip_blanks, lstrip_solid by auto; reflexivity).
  cbn [app] in *. unfold spaces. rewrite (proj2 (blank_ok d) (H d (or_introl eq_refl))). f_equal. exact E.
Qed.
Lemma spaces_inv t r : spaces t = Some r -> exists s, t = s ++ r /\ blanks s /\ s <> [].
Proof.
  destruct t as [|c t]; [discriminate|]. unfold spaces. destruct (blank c) eqn:B; [|discriminate].
  intros H. inversion H; subst. destruct (lstrip_split (c :: t)) as (a & Ha & E).
  exists a. repeat split; auto. intros ->. cbn [app lstrip] in E. rewrite B in E.
  destruct (lstrip_split t) as (b & _ & E'). apply (f_equal (@List.length N)) in E, E'.
  rewrite app_length in E'. cbn [List.length] in E. lia.
Qed.
Lemma quoted_yes n r : ~ In 34 n -> quoted (n ++ 34 :: r) = Some n.
Proof.
  induction n as [|c n IH]; intros H; [reflexivity|]. cbn [app quoted].
  destruct (c =? 34) eqn:E; [apply N.eqb_eq in E; subst; exfalso; apply H; left; reflexivity|].
  rewrite IH; [reflexivity|]. intros K; apply H; right; auto.
Qed.
Lemma quoted_inv t : forall n, quoted t = Some n -> exists r, t = n ++ 34 :: r /\ ~ In 34 n.
Proof.
  induction t as [|c t IH]; intros n; cbn [quoted]; [discriminate|].
  destruct (c =? 34) eqn:E.
  - apply N.eqb_eq in E. subst. intros H; inversion H. exists t. split; [reflexivity|intros []].
  - apply N.eqb_neq in E. destruct (quoted t) as [m|]; [|discriminate]. intros H; inversion H; subst.
    destruct (IH m eq_refl) as (r & -> & K). exists r. split; [reflexivity|]. intros [J|J]; auto.
Qed.

(** A word of a marker: it starts with a letter. *)
Definition wordy (w : text) : Prop := match w with c :: _ => blank c = false | [] => False end.
Lemma marker_inv w t : marker w t = true ->
  exists s s' r, t = chars "/*!!!" ++ s ++ w ++ s' ++ chars "!!!*/" ++ r /\ blanks s /\ s <> [] /\ blanks s' /\ s' <> [].
Proof.
  unfold marker, bind. destruct (literal _ t) as [a|] eqn:E1; [|discriminate].
  destruct (spaces a) as [b|] eqn:E2; [|discriminate]. destruct (literal w b) as [c|] eqn:E3; [|discriminate].
  destruct (spaces c) as [d|] eqn:E4; [|discriminate]. destruct (literal _ d) as [r|] eqn:E5; [|discriminate].
  intros _. apply literal_inv in E1, E3, E5. apply spaces_inv in E2, E4.
  destruct E2 as (s & -> & ? & ?), E4 as (s' & -> & ? & ?). subst. exists s, s', r. repeat split; auto.
Qed.
Lemma marker_yes w s s' r : wordy w -> blanks s -> s <> [] -> blanks s' -> s' <> [] ->
  marker w (chars "/*!!!" ++ s ++ w ++ s' ++ chars "!!!*/" ++ r) = true.
Proof.
  intros W H1 H2 H3 H4. unfold marker, bind. rewrite literal_yes.
  destruct w as [|c w]; [destruct W|]. cbn [wordy] in W.
  change ((c :: w) ++ s' ++ chars "!!!*/" ++ r) with (c :: (w ++ s' ++ chars "!!!*/" ++ r)).
  rewrite spaces_yes by auto.
  change (c :: (w ++ s' ++ chars "!!!*/" ++ r)) with ((c :: w) ++ s' ++ chars "!!!*/" ++ r). rewrite literal_yes.
  change (chars "!!!*/" ++ r) with (33 :: chars "!!*/" ++ r). rewrite spaces_yes by auto.
  change (33 :: chars "!!*/" ++ r) with (chars "!!!*/" ++ r). rewrite literal_yes. reflexivity.
Qed.
Lemma marks_iff w l : wordy w -> marks w l <-> marker w (strip l) = true.
Proof.
  intros W. split.
  - intros (a & s & s' & r & -> & Ha & H1 & H2 & H3 & H4).
    destruct (strip_keeps a 47 (chars "*!!!" ++ s ++ w ++ s' ++ chars "!!!*") 47 r Ha eq_refl eq_refl) as (r' & E).
    assert (forall z, chars "/*!!!" ++ s ++ w ++ s' ++ chars "!!!*/" ++ z
                      = 47 :: (chars "*!!!" ++ s ++ w ++ s' ++ chars "!!!*") ++ 47 :: z) as K.
    { intros z. rewrite <- !app_assoc. reflexivity. }
    rewrite K, E, <- K. apply marker_yes; auto.
  - intros H. destruct (marker_inv _ _ H) as (s & s' & r & E & H1 & H2 & H3 & H4).
    destruct (strip_split l) as (a & b & Ha & El). rewrite E in El.
    exists a, s, s', (r ++ b). repeat split; auto. rewrite El, <- !app_assoc. reflexivity.
Qed.
Lemma includes_iff l n : includes_file l n <-> include (strip l) = Some n.
Proof.
  split.
  - intros (a & s & r & -> & Ha & H1 & H2 & H3).
    destruct (strip_keeps a 35 (chars "include" ++ s ++ [34] ++ n) 34 r Ha eq_refl eq_refl) as (r' & E).
    assert (forall z, chars "#include" ++ s ++ [34] ++ n ++ [34] ++ z = 35 :: (chars "include" ++ s ++ [34] ++ n) ++ 34 :: z) as K.
    { intros z. rewrite <- !app_assoc. reflexivity. }
    rewrite K, E, <- K. unfold include, bind. rewrite literal_yes. cbn [app].
    rewrite spaces_yes by auto. cbn [literal]. rewrite N.eqb_refl. apply quoted_yes; auto.
  - unfold include, bind. intros H. destruct (literal _ (strip l)) as [x|] eqn:E1; [|discriminate].
    destruct (spaces x) as [y|] eqn:E2; [|discriminate]. destruct (literal [34] y) as [z|] eqn:E3; [|discriminate].
    apply literal_inv in E1, E3. apply spaces_inv in E2. destruct E2 as (s & -> & H1 & H2).
    apply quoted_inv in H. destruct H as (r & -> & H3). subst y.
    destruct (strip_split l) as (a & b & Ha & El). rewrite E1 in El.
    exists a, s, (r ++ b). repeat split; auto. rewrite El, <- !app_assoc. reflexivity.
Qed.
Lemma include_fun l n m : includes_file l n -> includes_file l m -> n = m.
Proof. intros H K. apply includes_iff in H, K. congruence. Qed.

Lemma start_wordy : wordy start_word. Proof. reflexivity. Qed.
Lemma end_wordy : wordy end_word. Proof. reflexivity. Qed.
(** A start marker is no end marker, and includes nothing. *)
Lemma start_not_end l : marks start_word l -> ~ marks end_word l.
Proof.
  intros H K. apply (marks_iff _ _ start_wordy) in H. apply (marks_iff _ _ end_wordy) in K.
  unfold marker, bind in *. destruct (literal _ (strip l)) as [a|]; [|discriminate].
  destruct (spaces a) as [b|]; [|discriminate].
  destruct (literal start_word b) as [x|] eqn:E1; [|discriminate]. destruct (literal end_word b) as [y|] eqn:E2; [|discriminate].
  apply literal_inv in E1, E2. rewrite E1 in E2. discriminate.
Qed.
Lemma start_includes l n : marks start_word l -> ~ includes_file l n.
Proof.
  intros H K. apply (marks_iff _ _ start_wordy) in H. apply includes_iff in K.
  unfold marker, include, bind in *. destruct (literal (chars "/*!!!") (strip l)) as [a|] eqn:E1; [|discriminate].
  destruct (literal (chars "#include") (strip l)) as [b|] eqn:E2; [|discriminate].
  apply literal_inv in E1, E2. rewrite E1 in E2. discriminate.
Qed.

(** ** Sections *)

Lemma bool_iff b P : (P <-> b = true) -> ~ P -> b = false.
Proof. destruct b; [|reflexivity]. intros H K. exfalso. apply K, H. reflexivity. Qed.

Fixpoint nameds (ls : list text) : list text :=
  match ls with [] => [] | l :: r => match include (strip l) with Some n => n :: nameds r | None => nameds r end end.
Lemma named_is ls : named ls (nameds ls).
Proof.
  induction ls as [|l r IH]; [constructor|]. cbn [nameds]. destruct (include (strip l)) as [n|] eqn:E.
  - constructor; auto. apply includes_iff; auto.
  - apply named_no; auto. intros n H. apply includes_iff in H. congruence.
Qed.
Lemma named_inv ls ns : named ls ns -> ns = nameds ls.
Proof.
  induction 1 as [|l n ls ns H _ IH|l ls ns H _ IH]; [reflexivity| |]; cbn [nameds].
  - apply includes_iff in H. rewrite H. congruence.
  - destruct (include (strip l)) as [n|] eqn:E; auto. exfalso. apply (H n), includes_iff; auto.
Qed.
Lemma nameds_app a b : nameds (a ++ b) = nameds a ++ nameds b.
Proof. induction a as [|l a IH]; [reflexivity|]. cbn [app nameds]. destruct (include _); cbn [app]; congruence. Qed.

Definition both (a b : list text * list text) : list text * list text := (fst a ++ fst b, snd a ++ snd b).
Lemma scan_plain ls r : plain ls -> scan false (ls ++ r) = both (ls, []) (scan false r).
Proof.
  induction ls as [|l ls IH]; intros H; cbn [app].
  - unfold both. cbn [fst snd app]. apply surjective_pairing.
  - cbn [scan]. rewrite (bool_iff _ _ (marks_iff _ l start_wordy)) by (apply H; left; auto).
    cbn [negb andb]. rewrite IH by (intros x Hx; apply H; right; auto).
    destruct (scan false r). reflexivity.
Qed.
Lemma scan_inner ls r : inner ls -> scan true (ls ++ r) = both ([], nameds ls) (scan true r).
Proof.
  induction ls as [|l ls IH]; intros H; cbn [app].
  - unfold both. cbn [fst snd app]. apply surjective_pairing.
  - cbn [scan negb andb]. rewrite (bool_iff _ _ (marks_iff _ l end_wordy)) by (apply H; left; auto).
    rewrite IH by (intros x Hx; apply H; right; auto). cbn [nameds].
    destruct (scan true r). unfold both. cbn [fst snd app]. destruct (include (strip l)); reflexivity.
Qed.
Lemma scan_open l r : marks start_word l -> scan false (l :: r) = scan true r.
Proof.
  intros H. pose proof (start_not_end _ H) as Hn. pose proof (fun n => start_includes _ n H) as Hi.
  apply (marks_iff _ _ start_wordy) in H. cbn [scan]. rewrite H. cbn [negb andb].
  rewrite (bool_iff _ _ (marks_iff _ l end_wordy)) by auto.
  destruct (include (strip l)) as [n|] eqn:E; [exfalso; apply (Hi n), includes_iff; auto|].
  destruct (scan true r); reflexivity.
Qed.
Lemma scan_close l r : marks end_word l -> scan true (l :: r) = scan false r.
Proof. intros H. apply (marks_iff _ _ end_wordy) in H. cbn [scan negb andb]. rewrite H. reflexivity. Qed.
Lemma scan_section s r : sec_ok s -> scan false (sec_lines s ++ r) = both (sc_before s, nameds (sc_body s)) (scan false r).
Proof.
  intros (H1 & H2 & H3 & H4). unfold sec_lines. rewrite <- !app_assoc. cbn [app].
  rewrite scan_plain, scan_open, scan_inner, scan_close by auto.
  destruct (scan false r). unfold both. cbn [fst snd]. rewrite app_nil_l. reflexivity.
Qed.

Theorem scan_doc d : doc_ok d -> scan false (lines (List.concat (doc_lines d))) = (doc_text d, nameds (doc_body d)).
Proof.
  intros (HL & HS & HA & HR). rewrite lines_concat by auto. clear HL.
  unfold doc_lines, doc_text, doc_body. destruct d as [ss af re]; cbn [dc_sections dc_after dc_rest] in *.
  induction ss as [|s ss IH]; cbn [map List.concat app].
  - rewrite scan_plain by auto. destruct re as [[m b]|]; cbn [rest_lines].
    + destruct HR as [H1 H2]. rewrite scan_open by auto. rewrite <- (app_nil_r b) at 1. rewrite scan_inner by auto.
      unfold both. cbn. rewrite !app_nil_r. reflexivity.
    + unfold both. cbn. rewrite !app_nil_r. reflexivity.
  - rewrite <- app_assoc, scan_section by (apply HS; left; auto).
    rewrite IH by (intros x Hx; apply HS; right; auto). unfold both. cbn [fst snd].
    rewrite <- !app_assoc, !nameds_app. reflexivity.
Qed.

(** Every list of lines is divided into text and sections. *)
Lemma marks_dec w l : wordy w -> marks w l \/ ~ marks w l.
Proof.
  intros W. destruct (marker w (strip l)) eqn:E; [left; apply marks_iff; auto|right].
  intros H. apply marks_iff in H; auto. congruence.
Qed.
Definition parts_ok (d : doc) : Prop :=
  (forall s, In s (dc_sections d) -> sec_ok s) /\ plain (dc_after d)
  /\ match dc_rest d with Some (m, b) => marks start_word m /\ inner b | None => True end.
Lemma divide ls :
  (exists d, parts_ok d /\ ls = doc_lines d)
  /\ ((exists b c d, inner b /\ marks end_word c /\ parts_ok d /\ ls = b ++ c :: doc_lines d) \/ inner ls).
Proof.
  induction ls as [|l ls [(d & Hd & ->) HC]].
  - split; [exists (Doc [] [] None)|right; intros ? []]. split; [|reflexivity]. split; [intros ? []|]. split; [intros ? []|exact I].
  - split.
    + destruct (marks_dec start_word l start_wordy) as [M|M].
      * destruct HC as [(b & c & d' & Hb & Hc & Hd' & E)|Hi].
        -- destruct d' as [ss af re]. exists (Doc (Section [] l b c :: ss) af re). destruct Hd' as (A1 & A2 & A3).
           split; [|rewrite E; unfold doc_lines, sec_lines; cbn [dc_sections dc_after dc_rest map List.concat sc_before sc_open sc_body sc_close app]; rewrite <- !app_assoc; reflexivity].
           split; [|split; auto]. intros s [<-|Hs]; [|apply A1; auto]. split; [intros ? []|]. auto.
        -- exists (Doc [] [] (Some (l, doc_lines d))). split; [|reflexivity]. split; [intros ? []|]. split; [intros ? []|]. split; auto.
      * destruct d as [[|s ss] af re]; destruct Hd as (A1 & A2 & A3).
        -- exists (Doc [] (l :: af) re). split; [|reflexivity]. split; [intros ? []|]. split; [|auto].
           intros x [<-|Hx]; auto.
        -- destruct s as [bf op bo cl]. exists (Doc (Section (l :: bf) op bo cl :: ss) af re). split; [|reflexivity].
           split; [|auto]. intros s [<-|Hs]; [|apply A1; right; auto].
           destruct (A1 _ (or_introl eq_refl)) as (B1 & B2 & B3 & B4). split; [|auto].
           intros x [<-|Hx]; auto.
    + destruct (marks_dec end_word l end_wordy) as [M|M].
      * left. exists [], l, d. split; [intros ? []|]. auto.
      * destruct HC as [(b & c & d' & Hb & Hc & Hd' & E)|Hi]; [left|right].
        -- exists (l :: b), c, d'. split; [intros x [<-|Hx]; auto|]. rewrite E. auto.
        -- intros x [<-|Hx]; auto.
Qed.
Theorem doc_exists t : exists d, doc_ok d /\ t = List.concat (doc_lines d).
Proof.
  destruct (divide (lines t)) as [(d & (H1 & H2 & H3) & E) _]. exists d. rewrite <- E, concat_lines.
  split; [|reflexivity]. split; [rewrite <- E; apply lines_are_ok|auto].
Qed.
