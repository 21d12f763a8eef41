(** Proofs of the end-to-end properties. *)
From Coq Require Import NArith ZArith List Bool Lia ZifyBool ZifyNat ZifyN.
From Verif Require Import Base Config Codec Checksum State Queue Daq Core Spec Lists Effects Handlers HTx HInv HInv2
  HFields HResp DaqInv HSpec Steps Demo Ops ProofsSession Exec ProofsFrames SpecProt ProofsProt SpecMem ProofsMem ProofsWrite SpecDaq ProofsDaqA ProofsDaqB ProofsDaqC ProofsDaqD ProofsDaqE ProofsDaqF ProofsDaqG ProofsDaqI ProofsTight2 PropertiesDaq PropertiesTight SpecE2e.
Import ListNotations.
Open Scope N_scope.
Ltac Zify.zify_post_hook ::= Z.div_mod_to_equations.

(** ** Coding of fields *)
Lemma coded2 : forall c v, v < 65536 -> exists a b, coded c 2 v = [a; b] /\ field c [a; b] = v /\ a < 256 /\ b < 256.
Proof.
  intros c v H. unfold coded, field, be_value. cbn [le_bytes rev app]. destruct (c_motorola c).
  - exists (v / 256 mod 256), (v mod 256). split; [reflexivity|]. cbn [rev app le_value]. lia.
  - exists (v mod 256), (v / 256 mod 256). split; [reflexivity|]. cbn [le_value]. lia.
Qed.
Lemma coded4 : forall c v, v < 2 ^ 32 -> exists a0 a1 a2 a3, coded c 4 v = [a0; a1; a2; a3] /\ field c [a0; a1; a2; a3] = v /\ a0 < 256 /\ a1 < 256 /\ a2 < 256 /\ a3 < 256.
Proof.
  intros c v H. change (2 ^ 32) with 4294967296 in H. pose proof (le_value_bytes 4 v) as E. change (256 ^ N.of_nat 4) with 4294967296 in E. rewrite N.mod_small in E by exact H.
  pose proof (bytes_le 4 v) as B. unfold coded, field, be_value. cbn [le_bytes] in *. inversion B as [|? ? B0 B']; subst. inversion B' as [|? ? B1 B'']; subst.
  inversion B'' as [|? ? B2 B3]; subst. inversion B3 as [|? ? B4 _]; subst. destruct (c_motorola c); do 4 eexists; (split; [reflexivity|]); auto.
Qed.

(** ** Lists of lists *)
Lemma getN_mid : forall A (p : list A) x q, getN (p ++ x :: q) (lenN p) = Some x.
Proof. intros. unfold getN, lenN. rewrite Nnat.Nat2N.id, nth_error_app2 by lia. now rewrite Nat.sub_diag. Qed.
Lemma put_mid : forall A (p : list A) x y q, put (lenN p) y (p ++ x :: q) = p ++ y :: q.
Proof.
  intros. unfold put, lenN. rewrite Nnat.Nat2N.id. rewrite firstn_app, Nat.sub_diag, firstn_all. cbn [firstn]. rewrite app_nil_r. f_equal. f_equal.
  rewrite skipn_app. rewrite (skipn_all2 p) by lia. replace (S (length p) - length p)%nat with 1%nat by lia. reflexivity.
Qed.
Lemma put_odts_mid : forall p x y q, put_odts (p ++ x :: q) (lenN p) y = p ++ y :: q.
Proof. intros. apply put_mid. Qed.
Lemma odt_mid : forall p a x b q, odt_at (p ++ (a ++ x :: b) :: q) (lenN p) (lenN a) = Some x.
Proof. intros. unfold odt_at. rewrite getN_mid. apply getN_mid. Qed.
Lemma put_entries_mid : forall p a x y b q, put_entries (p ++ (a ++ x :: b) :: q) (lenN p) (lenN a) y = p ++ (a ++ y :: b) :: q.
Proof. intros. unfold put_entries. rewrite getN_mid. now rewrite !put_mid. Qed.
Lemma entry_mid : forall p a u x v b q, entry_at (p ++ (a ++ (u ++ x :: v) :: b) :: q) (lenN p) (lenN a) (lenN u) = Some x.
Proof. intros. unfold entry_at. rewrite odt_mid. apply getN_mid. Qed.
Lemma put_entry_mid : forall p a u x y v b q, put_entry (p ++ (a ++ (u ++ x :: v) :: b) :: q) (lenN p) (lenN a) (lenN u) y = p ++ (a ++ (u ++ y :: v) :: b) :: q.
Proof. intros. unfold put_entry. rewrite odt_mid, put_mid. apply put_entries_mid. Qed.
Lemma snoc_cons : forall A (p : list A) x q, p ++ x :: q = (p ++ [x]) ++ q.
Proof. intros. now rewrite <- app_assoc. Qed.
Lemma lenN_snoc : forall A (p : list A) x, lenN (p ++ [x]) = lenN p + 1.
Proof. intros. rewrite lenN_app. reflexivity. Qed.

(** Size of a configuration, additive. *)
Definition lsize (os : list (list (N * N))) : N := 1 + lenN os + lenN (concat os).
Fixpoint tsize (t : tree) : N := match t with [] => 0 | os :: r => lsize os + tsize r end.
Lemma tsize_eq : forall t, tsize t = lenN t + lenN (concat t) + lenN (concat (concat t)).
Proof.
  induction t as [|os t IH]; [reflexivity|]. cbn [tsize concat]. rewrite concat_app, !lenN_app, lenN_cons, IH. unfold lsize. lia.
Qed.
Lemma tsize_app : forall a b, tsize (a ++ b) = tsize a + tsize b.
Proof. induction a as [|x a IH]; intro b; cbn [tsize app]; [reflexivity|]. rewrite IH. lia. Qed.
Lemma lsize_app : forall a x b, lsize (a ++ x :: b) = lsize (a ++ b) + 1 + lenN x.
Proof. intros. unfold lsize. rewrite !concat_app. cbn [concat]. rewrite !lenN_app, lenN_cons. lia. Qed.

(** Shapes. *)
Definition bare {A} (l : list (list A)) : list (list A) := map (fun _ => []) l.
Definition blank (es : list (N * N)) : list (N * N) := map (fun _ => (0, 0)) es.
Lemma bare_repeat : forall A (l : list (list A)), bare l = repeat [] (length l).
Proof. induction l; cbn; [reflexivity|]. now f_equal. Qed.
Lemma blank_repeat : forall es, blank es = repeat (0, 0) (length es).
Proof. induction es; cbn; [reflexivity|]. now f_equal. Qed.
Lemma lenN_nat : forall A (l : list A), N.to_nat (lenN l) = length l.
Proof. intros. unfold lenN. now rewrite Nnat.Nat2N.id. Qed.

Lemma lsize_bare : forall os, lsize (bare os) = 1 + lenN os.
Proof. intro os. unfold lsize. rewrite bare_repeat, concat_repeat_nil, lenN_repeat. unfold lenN. cbn [length]. lia. Qed.

Lemma tsize_bare : forall q, tsize (bare q) <= tsize (map bare q).
Proof.
  induction q as [|x q IH]; [cbn; lia|]. cbn [bare map tsize]. change (map (fun _ => []) q) with (bare q).
  change (map (fun _ : list (N * N) => []) x) with (bare x). rewrite lsize_bare. change (lsize []) with 1. lia.
Qed.

Lemma blank_len : forall es, lenN (blank es) = lenN es.
Proof. intro es. unfold lenN, blank. now rewrite map_length. Qed.
Lemma lsize_cat : forall a b, lsize (a ++ b) = lsize a + lenN b + lenN (concat b).
Proof. intros. unfold lsize. rewrite concat_app, !lenN_app. lia. Qed.
Lemma concat_bare : forall A (l : list (list A)), concat (bare l) = [].
Proof. intros. now rewrite bare_repeat, concat_repeat_nil. Qed.
Lemma lenN_map : forall A B (f : A -> B) l, lenN (map f l) = lenN l.
Proof. intros. unfold lenN. now rewrite map_length. Qed.
Lemma lsize_blank : forall u v, lsize (u ++ bare v) <= lsize (u ++ map blank v).
Proof. intros. rewrite !lsize_cat, concat_bare. unfold bare. rewrite !lenN_map. change (lenN []) with 0. lia. Qed.
Lemma tsize_blank : forall q, tsize (map bare q) <= tsize (map (map blank) q).
Proof.
  induction q as [|x q IH]; [cbn; lia|]. cbn [map tsize]. pose proof (lsize_blank [] x) as Z. cbn [app] in Z. lia.
Qed.
Lemma tsize_map_blank : forall q, tsize (map (map blank) q) = tsize q.
Proof.
  induction q as [|x q IH]; [reflexivity|]. cbn [map tsize]. rewrite IH. f_equal. unfold lsize. rewrite lenN_map. f_equal. clear.
  induction x as [|y x IH]; [reflexivity|]. cbn [map concat]. now rewrite !lenN_app, IH, blank_len.
Qed.

(** ** Dialogues *)
Section Talk.
Variables (c : cfg) (s0 : st).
Variables (D : dlc_ok c) (RD : ready s0) (Op : daq_open c s0) (Sm : c_max_ent c < 65536).

(** Reachable, in the session of [s0], with DAQ state in [Q]. *)
Definition K (Q : daqst -> Prop) (s : st) : Prop :=
  (exists m l o, reachable c m l s o) /\ same_session (with_daq (s_daq s) s0) s /\ Q (s_daq s).
Definition does (d : dialogue) (P Q : daqst -> Prop) : Prop :=
  forall l s, K P s -> performs c d l -> exists s' o, run c l s = Ok (s', o) /\ as_expected c d o /\ K Q s'.

Lemma does_nil : forall P Q : daqst -> Prop, (forall d, P d -> Q d) -> does [] P Q.
Proof.
  intros P Q H l s (A & B & C) (E & _). destruct l; [|discriminate]. exists s, []. split; [reflexivity|]. split; [constructor|]. split; auto.
Qed.
Lemma does_app : forall a b P Q R, does a P Q -> does b Q R -> does (a ++ b) P R.
Proof.
  intros a b P Q R HA HB l s Hs (E & F). rewrite map_app in E. apply map_eq_app in E. destruct E as (l1 & l2 & -> & E1 & E2). apply Forall_app in F. destruct F as (F1 & F2).
  destruct (HA l1 s Hs (conj E1 F1)) as (s1 & o1 & R1 & X1 & K1). destruct (HB l2 s1 K1 (conj E2 F2)) as (s2 & o2 & R2 & X2 & K2).
  exists s2, (o1 ++ o2). split; [|split; [apply Forall2_app; auto|exact K2]]. rewrite (run_app_val c l1 l2 s s1 o1 R1). unfold andthen. cbn [bind]. rewrite R2. reflexivity.
Qed.
Lemma does_cons : forall x b P Q R, does [x] P Q -> does b Q R -> does (x :: b) P R.
Proof. intros. exact (does_app [x] b P Q R H H0). Qed.
Lemma does_weak : forall d (P P' Q Q' : daqst -> Prop), (forall x, P' x -> P x) -> (forall x, Q x -> Q' x) -> does d P Q -> does d P' Q'.
Proof.
  intros d P P' Q Q' HP HQ H l s (A & B & C) F. destruct (H l s (conj A (conj B (HP _ C))) F) as (s' & o & X & Y & (A' & B' & C')).
  exists s', o. repeat split; auto; try apply B'.
Qed.

Lemma does_one : forall f bs (P Q : daqst -> Prop), bytes f ->
  (forall m l s o e, reachable c m l s o -> ready s -> daq_open c s -> P (s_daq s) -> wf_env c e ->
     exists d, answers c e f s bs (with_daq d s) /\ (dinv c d -> Q d)) ->
  does [(f, bs)] P Q.
Proof.
  intros f bs P Q Bf H l s ((m & l0 & o0 & R) & S & HP) (E & F). destruct l as [|(e & x) [|? ?]]; cbn [map snd fst] in E; try discriminate. injection E as ->.
  inversion F as [|? ? We _]; subst. cbn [fst] in We. destruct (S) as (S1 & S2 & S3 & S4 & S5 & S6 & S7 & S8 & S9 & S10 & S11 & S12 & S13 & S14 & S15).
  destruct (H m l0 s o0 e R) as (d & (s1 & o1 & E1 & A1 & T) & HQ); auto.
  - unfold ready in *. rewrite S1, S2. exact RD.
  - unfold daq_open, programming, locked in *. rewrite S3, S4. exact Op.
  - assert (Ed : s_daq s1 = d) by apply T. exists s1, o1. split; [|split; [|split; [|split]]].
    + cbn [run]. unfold andthen. rewrite E1. cbn [bind]. now rewrite app_nil_r.
    + destruct A1 as (p & -> & X & Y). constructor; [auto|constructor].
    + exists m, (l0 ++ [(e, ORecv f)]), (o0 ++ o1). eapply reach_step; eauto. split; auto.
    + destruct T as (T1 & T2 & T3 & T4 & T5 & T6 & T7 & T8 & T9 & T10 & T11 & T12 & T13 & T14 & T15).
      unfold same_session, with_daq in *. ss_in S1. ss_in S2. ss_in S3. ss_in S4. ss_in S5. ss_in S6. ss_in S7. ss_in S8. ss_in S9. ss_in S10. ss_in S11. ss_in S12. ss_in S13. ss_in S15.
      ss_in T1. ss_in T2. ss_in T3. ss_in T4. ss_in T5. ss_in T6. ss_in T7. ss_in T8. ss_in T9. ss_in T10. ss_in T11. ss_in T12. ss_in T13. ss_in T14. ss_in T15. ss.
      repeat split; congruence.
    + rewrite Ed. apply HQ. rewrite <- Ed. apply i_d. eapply reach_inv. eapply reach_step; eauto. split; auto.
Qed.

(** ** Allocation *)
Definition rep (d : daqst) (t : tree) : Prop := exists fo fe, represents_by fo fe c d t.
Definition still (d : daqst) : Prop := d_run d = false /\ q_head (d_q d) = used s0.
Definition stage (ph : alloc -> Prop) (t : tree) (d : daqst) : Prop := rep d t /\ still d /\ ph (d_alloc d).

Lemma rep_emptied : forall d, dinv c d -> emptied d -> rep d [].
Proof.
  intros d I (_ & E1 & E2 & E3 & E4 & _). exists (fun _ => 0), (fun _ _ => 0).
  assert (N1 : forall A l (x : A), getN [] l = Some x -> False) by (intros A l x H; unfold getN in H; destruct (N.to_nat l); discriminate).
  constructor; auto; unfold entry_at, odt_at.
  - intros l os H. destruct (N1 _ _ _ H).
  - intros l o es H. destruct (getN [] l) eqn:G; [destruct (N1 _ _ _ G)|discriminate].
  - intros l o k x H. destruct (getN [] l) eqn:G; [destruct (N1 _ _ _ G)|discriminate].
  - intros l o es H. destruct (getN [] l) eqn:G; [destruct (N1 _ _ _ G)|discriminate].
  - intros l o k x H. destruct (getN [] l) eqn:G; [destruct (N1 _ _ _ G)|discriminate].
  - intros l o l' o' es es' H. destruct (getN [] l) eqn:G; [destruct (N1 _ _ _ G)|discriminate].
  - intros l o k l' o' k' x x' H. destruct (getN [] l) eqn:G; [destruct (N1 _ _ _ G)|discriminate].
  - intros i Hi. rewrite E3 in Hi. unfold body_at. destruct (getN_lt_Some _ (d_ents d) i) as (x & Hx); [rewrite (d_len _ _ I); lia|].
    rewrite Hx. cbn [option_map]. rewrite Forall_forall in E4. f_equal. apply E4. unfold getN in Hx. eapply nth_error_In; eauto.
Qed.
Lemma rep_ecnt : forall d t, rep d t -> d_ecnt d = tsize t.
Proof. intros d t (fo & fe & R). rewrite (r_count _ _ _ _ _ R), tsize_eq. reflexivity. Qed.
Lemma wfc : forall m l s o, reachable c m l s o -> 8 <= c_ctobuf c.
Proof. intros m l s o R. pose proof (wf_cto _ (proj1 R)). unfold c_ctobuf. lia. Qed.
Lemma kept : forall d d', only_tables d d' -> still d -> still d'.
Proof. intros d d' (A & _ & _ & _ & _ & _ & B) (C & E). unfold still. rewrite A, B. auto. Qed.

Variable (Dy : dynamic c).

Lemma free_does : forall P : daqst -> Prop, (forall d, P d -> still d) -> does [ok [0xD6]] P (stage (fun a => a = AFree) []).
Proof.
  intros P HP. apply does_one; [repeat constructor|]. intros m l s o e R Rd Ro Hs We.
  destruct (C32_free c m l s o e [] R Rd D Ro) as (d & A & E & X1 & X2 & X3 & X4 & X5 & X6); [apply Dy; cbn; auto|pose proof (wfc _ _ _ _ R); change (lenN [0xD6]) with 1; lia|].
  exists d. split; [exact A|]. intro I. split; [now apply rep_emptied|]. split; [|apply E]. unfold still. rewrite X1, X6. now apply HP.
Qed.
Lemma daq_does : forall t, tsize t <= c_max_ent c ->
  does [ok ([0xD5; 0] ++ coded c 2 (lenN t))] (stage (fun a => a = AFree) []) (stage (fun a => a = ADaq) (bare t)).
Proof.
  intros t Ht. assert (Lt : lenN t <= tsize t) by (rewrite tsize_eq; lia). destruct (coded2 c (lenN t)) as (a & b & E & F & Ha & Hb); [lia|]. unfold ok. rewrite E. cbn [app].
  apply does_one; [repeat constructor; lia|]. intros m l s o e R Rd Ro (Rp & St & Ph) We.
  destruct (C32_alloc_daq c m l s o e [] 0 a b [] R Rd D Ro Sm) as (d & A & Rp' & O & Ph'); auto.
  - repeat constructor; lia.
  - pose proof (wfc _ _ _ _ R). change (lenN [_; _; _; _]) with 4. lia.
  - apply Dy. cbn. auto.
  - rewrite F. unfold fits. lia.
  - rewrite F, (rep_ecnt _ _ Rp). cbn [tsize]. lia.
  - exists d. split; [exact A|]. intros _. split; [|split; [eapply kept; eauto|exact Ph']]. rewrite F, lenN_nat in Rp'. cbn [app] in Rp'. rewrite bare_repeat. exact Rp'.
Qed.

(** ODTs of the lists [q], those of the lists [p] being allocated already. *)
Lemma odts_does : forall q p, tsize (p ++ map bare q) <= c_max_ent c -> Forall (fun os => lenN os < 256) q ->
  does (map (fun x => ok ([0xD4; 0] ++ coded c 2 (fst x) ++ [lenN (snd x)])) (from (lenN p) q))
    (stage (fun a => a = AOdt \/ a = ADaq) (p ++ bare q)) (stage (fun a => a = AOdt \/ a = ADaq) (p ++ map bare q)) /\
  (q <> [] -> does (map (fun x => ok ([0xD4; 0] ++ coded c 2 (fst x) ++ [lenN (snd x)])) (from (lenN p) q))
    (stage (fun a => a = AOdt \/ a = ADaq) (p ++ bare q)) (stage (fun a => a = AOdt) (p ++ map bare q))).
Proof.
  induction q as [|os q IH]; intros p Hs Hq; [split; [apply does_nil; auto|congruence]|].
  inversion Hq as [|? ? Ho Hq']; subst. cbn [from map bare fst snd].
  assert (S1 : does [ok ([0xD4; 0] ++ coded c 2 (lenN p) ++ [lenN os])] (stage (fun a => a = AOdt \/ a = ADaq) (p ++ [] :: bare q)) (stage (fun a => a = AOdt) ((p ++ [bare os]) ++ bare q))).
  { cbn [map] in Hs. rewrite tsize_app in Hs. cbn [tsize] in Hs. assert (Lp : lenN p <= tsize p) by (rewrite tsize_eq; lia).
    destruct (coded2 c (lenN p)) as (a & b & E & F & Ha & Hb); [unfold lsize in Hs; lia|]. unfold ok. rewrite E. cbn [app].
    apply does_one; [repeat constructor; lia|]. intros m l s o e R Rd Ro (Rp & St & Ph) We.
    destruct (C32_alloc_odt c m l s o e (p ++ [] :: bare q) 0 a b (lenN os) [] R Rd D Ro Sm) as (d & A & Rp' & O & Ph'); auto.
    - rewrite F. apply getN_mid.
    - repeat constructor; lia.
    - pose proof (wfc _ _ _ _ R). change (lenN [_; _; _; _; _]) with 5. lia.
    - apply Dy. cbn. auto.
    - tauto.
    - rewrite (rep_ecnt _ _ Rp), tsize_app. cbn [tsize].
      pose proof (tsize_bare q) as Z.
      pose proof (lsize_bare os) as Zo.
      rewrite Zo in Hs. change (lsize []) with 1. lia.
    - exists d. split; [exact A|]. intros _. split; [|split; [eapply kept; eauto|exact Ph']]. rewrite F, lenN_nat, put_odts_mid in Rp'. rewrite <- snoc_cons, bare_repeat. exact Rp'. }
  assert (Hs' : tsize ((p ++ [bare os]) ++ map bare q) <= c_max_ent c) by (rewrite <- snoc_cons; exact Hs).
  destruct (IH (p ++ [bare os]) Hs' Hq') as (I1 & I2). rewrite lenN_snoc, <- !snoc_cons in *.
  split; [|intros _].
  - eapply does_cons; [exact S1|]. eapply does_weak; [| |exact I1]; [|now intros]. intros x (A & B & C). split; [exact A|split; auto].
  - eapply does_cons; [exact S1|]. destruct q as [|y q]; [cbn [from map bare]; now apply does_nil|]. eapply does_weak; [| |apply I2; congruence]; [|now intros].
    intros x (A & B & C). split; [exact A|split; auto].
Qed.

(** Entries of the ODTs [v] of one list, those of the ODTs [u] being allocated already. *)
Definition fine (a : alloc) : Prop := a = AOdt \/ a = AEntry.
Lemma ents_list : forall v u p q, tsize (p ++ (u ++ map blank v) :: q) <= c_max_ent c -> lenN u + lenN v < 256 -> Forall (fun es => lenN es < 256) v ->
  does (map (fun y => ok ([0xD3; 0] ++ coded c 2 (lenN p) ++ [fst y; lenN (snd y)])) (from (lenN u) v))
    (stage fine (p ++ (u ++ bare v) :: q)) (stage fine (p ++ (u ++ map blank v) :: q)).
Proof.
  induction v as [|es v IH]; intros u p q Hs Hl Hv; [now apply does_nil|].
  inversion Hv as [|? ? He Hv']; subst. cbn [from map fst snd]. change (bare (es :: v)) with ([] :: bare v). cbn [map] in Hs. rewrite lenN_cons in Hl.
  eapply (does_cons _ _ _ (stage fine (p ++ (u ++ blank es :: bare v) :: q))).
  - rewrite tsize_app in Hs. cbn [tsize] in Hs. rewrite lsize_app, blank_len in Hs. pose proof (lsize_blank u v) as Z. assert (Lp : lenN p <= tsize p) by (rewrite tsize_eq; lia).
    destruct (coded2 c (lenN p)) as (a & b & E & F & Ha & Hb); [lia|]. unfold ok. rewrite E. cbn [app].
    apply does_one; [repeat constructor; lia|]. intros m l s o e R Rd Ro (Rp & St & Ph) We.
    destruct (C32_alloc_odt_entry c m l s o e (p ++ (u ++ [] :: bare v) :: q) 0 a b (lenN u) (lenN es) [] R Rd D Ro Sm) as (d & A & Rp' & O & Ph'); auto.
    + rewrite F. apply odt_mid.
    + repeat constructor; lia.
    + pose proof (wfc _ _ _ _ R). change (lenN [_; _; _; _; _; _]) with 6. lia.
    + apply Dy. cbn. auto.
    + rewrite (rep_ecnt _ _ Rp), tsize_app. cbn [tsize]. rewrite lsize_app. change (lenN []) with 0. lia.
    + exists d. split; [exact A|]. intros _. split; [|split; [eapply kept; eauto|right; exact Ph']]. rewrite F, lenN_nat, put_entries_mid in Rp'. rewrite blank_repeat. exact Rp'.
  - rewrite (snoc_cons _ u (blank es) (bare v)), (snoc_cons _ u (blank es) (map blank v)). rewrite <- lenN_snoc with (x := blank es). apply IH; auto; [now rewrite <- snoc_cons|rewrite lenN_snoc; lia].
Qed.
Lemma ents_does : forall q p, tsize (p ++ map (map blank) q) <= c_max_ent c -> Forall (fun os => lenN os < 256 /\ Forall (fun es => lenN es < 256) os) q ->
  does (flat_map (fun x => map (fun y => ok ([0xD3; 0] ++ coded c 2 (fst x) ++ [fst y; lenN (snd y)])) (from 0 (snd x))) (from (lenN p) q))
    (stage fine (p ++ map bare q)) (stage fine (p ++ map (map blank) q)).
Proof.
  induction q as [|os q IH]; intros p Hs Hq; [now apply does_nil|].
  inversion Hq as [|? ? (Ho & He) Hq']; subst. cbn [from flat_map map fst snd]. cbn [map] in Hs.
  eapply (does_app _ _ _ (stage fine (p ++ map blank os :: map bare q))).
  - apply (ents_list os [] p (map bare q)); auto. cbn [app]. rewrite tsize_app in *. cbn [tsize] in *. pose proof (tsize_blank q). lia.
  - rewrite (snoc_cons _ p _ (map bare q)), (snoc_cons _ p _ (map (map blank) q)). rewrite <- lenN_snoc with (x := map blank os). apply IH; auto. now rewrite <- snoc_cons.
Qed.

(** ** Filling in the entries *)
Definition built (t : tree) (d : daqst) : Prop := rep d t /\ still d.
Lemma write_does : forall w v u x p q, Forall (fun z => fst z < 2 ^ 32 /\ snd z < 256) w ->
  does (map (fun z => ok ([0xE1; 0xFF; snd z; 0] ++ coded c 4 (fst z))) w)
    (fun d => built (p ++ (u ++ (v ++ blank w) :: x) :: q) d /\ d_plist d = lenN p /\ d_podt d = lenN u /\ d_pent d = lenN v)
    (built (p ++ (u ++ (v ++ w) :: x) :: q)).
Proof.
  induction w as [|(ad & sz) w IH]; intros v u x p q Hw; [apply does_nil; now intros d (H & _)|].
  inversion Hw as [|? ? (Hf & Hz) Hw']; subst. cbn [fst snd] in *. cbn [map fst snd]. change (blank ((ad, sz) :: w)) with ((0, 0) :: blank w).
  eapply (does_cons _ _ _ (fun d => built (p ++ (u ++ ((v ++ [(ad, sz)]) ++ blank w) :: x) :: q) d /\ d_plist d = lenN p /\ d_podt d = lenN u /\ d_pent d = lenN (v ++ [(ad, sz)]))).
  - destruct (coded4 c ad Hf) as (a0 & a1 & a2 & a3 & E & F & H0 & H1 & H2 & H3). unfold ok. rewrite E. cbn [app].
    apply does_one; [repeat constructor; lia|]. intros m l s o e R Rd Ro ((Rp & St) & P1 & P2 & P3) We.
    destruct (C37_write_daq c m l s o e _ 0xFF sz 0 a0 a1 a2 a3 [] (0, 0) R Rd D Ro Sm Rp) as (es & A & Rp').
    + unfold measuring. destruct St as (X & _). congruence.
    + pose proof (wfc _ _ _ _ R). change (lenN [_; _; _; _; _; _; _; _]) with 8. lia.
    + rewrite P1, P2, P3. apply entry_mid.
    + eexists. split; [exact A|]. intros _. rewrite F in Rp'. match type of Rp' with represents _ _ ?t => assert (T : t = p ++ (u ++ (v ++ (ad, sz) :: blank w) :: x) :: q) by (rewrite P1, P2, P3; apply put_entry_mid); rewrite T in Rp' end. split; [split|].
      * rewrite <- (snoc_cons _ v (ad, sz) (blank w)). exact Rp'.
      * exact St.
      * rewrite lenN_snoc, <- P3. repeat split; assumption.
  - rewrite (snoc_cons _ v (ad, sz) w). apply IH. exact Hw'.
Qed.
Lemma odt_does : forall es u x p q, lenN u < 256 -> Forall (fun z => fst z < 2 ^ 32 /\ snd z < 256) es -> lenN p < c_max_ent c ->
  does (write_odt c (lenN p) (lenN u) es) (built (p ++ (u ++ blank es :: x) :: q)) (built (p ++ (u ++ es :: x) :: q)).
Proof.
  intros es u x p q Hu He Hp. destruct es as [|e1 es]; [now apply does_nil|]. unfold write_odt.
  eapply does_cons; [|exact (write_does (e1 :: es) [] u x p q He)]. cbn [app].
  destruct (coded2 c (lenN p)) as (a & b & E & F & Ha & Hb); [lia|]. unfold ok. rewrite E. cbn [app].
  apply does_one; [repeat constructor; lia|]. intros m l s o e R Rd Ro (Rp & St) We.
  assert (X : entry_at (p ++ (u ++ blank (e1 :: es) :: x) :: q) (lenN p) (lenN u) 0 = Some (0, 0)) by exact (entry_mid p u [] (0, 0) (blank es) x q).
  pose proof (C36_set_daq_ptr c m l s o e _ 0 a b (lenN u) 0 [] R Rd D Ro Sm Rp) as T. cbv zeta in T. rewrite F, X in T.
  eexists. split; [apply T|].
  - unfold measuring. destruct St as (Z & _). congruence.
  - repeat constructor; lia.
  - pose proof (wfc _ _ _ _ R). change (lenN [_; _; _; _; _; _]) with 6. lia.
  - unfold fits. lia.
  - intros _. split; [split; [|exact St]|repeat split]. destruct Rp as (fo & fe & Rp). exists fo, fe. eapply rep_tables; [|exact Rp]. repeat split.
Qed.
Lemma fill_list : forall v u p q, lenN u + lenN v < 256 -> lenN p < c_max_ent c -> Forall (Forall (fun z => fst z < 2 ^ 32 /\ snd z < 256)) v ->
  does (flat_map (fun y => write_odt c (lenN p) (fst y) (snd y)) (from (lenN u) v))
    (built (p ++ (u ++ map blank v) :: q)) (built (p ++ (u ++ v) :: q)).
Proof.
  induction v as [|es v IH]; intros u p q Hl Hp Hv; [now apply does_nil|].
  inversion Hv as [|? ? He Hv']; subst. cbn [from flat_map map fst snd]. rewrite lenN_cons in Hl.
  eapply does_app; [apply odt_does; auto; lia|]. rewrite (snoc_cons _ u _ (map blank v)), (snoc_cons _ u _ v). rewrite <- lenN_snoc with (x := es). apply IH; auto. rewrite lenN_snoc. lia.
Qed.
Lemma fill_does : forall q p, lenN p + lenN q <= c_max_ent c ->
  Forall (fun os => lenN os < 256 /\ Forall (Forall (fun z => fst z < 2 ^ 32 /\ snd z < 256)) os) q ->
  does (flat_map (fun x => flat_map (fun y => write_odt c (fst x) (fst y) (snd y)) (from 0 (snd x))) (from (lenN p) q))
    (built (p ++ map (map blank) q)) (built (p ++ q)).
Proof.
  induction q as [|os q IH]; intros p Hl Hq; [now apply does_nil|].
  inversion Hq as [|? ? (Ho & He) Hq']; subst. cbn [from flat_map map fst snd]. rewrite lenN_cons in Hl.
  eapply does_app; [apply (fill_list os [] p); auto; lia|]. cbn [app]. rewrite (snoc_cons _ p _ (map (map blank) q)), (snoc_cons _ p _ q). rewrite <- lenN_snoc with (x := os). apply IH; auto. rewrite lenN_snoc. lia.
Qed.

(** ** The whole configuration *)
Lemma configure_does : forall t, tree_ok c t -> does (allocate c t ++ fill c t) still (built t).
Proof.
  intros t (Hs & Ht). rewrite <- tsize_eq in Hs.
  assert (T1 : tsize (map (map blank) t) = tsize t) by apply tsize_map_blank. pose proof (tsize_blank t) as T2.
  assert (Lt : lenN t <= tsize t) by (rewrite tsize_eq; lia).
  assert (Q1 : Forall (fun os => lenN os < 256) t) by (eapply Forall_impl; [|exact Ht]; now intros os (H & _)).
  assert (Q2 : Forall (fun os => lenN os < 256 /\ Forall (fun es => lenN es < 256) os) t).
  { eapply Forall_impl; [|exact Ht]; intros os (H & H'). split; [exact H|]. eapply Forall_impl; [|exact H']; now intros es (X & _). }
  assert (Q3 : Forall (fun os => lenN os < 256 /\ Forall (Forall (fun z => fst z < 2 ^ 32 /\ snd z < 256)) os) t).
  { eapply Forall_impl; [|exact Ht]; intros os (H & H'). split; [exact H|]. eapply Forall_impl; [|exact H']; now intros es (_ & X). }
  apply (does_app _ _ _ (built (map (map blank) t))); [|exact (fill_does t [] ltac:(change (lenN []) with 0; lia) Q3)].
  unfold allocate. cbn [app].
  eapply does_cons; [now apply free_does|]. eapply does_cons; [now apply daq_does|].
  destruct t as [|os t'].
  - cbn [from map flat_map app]. apply does_nil. intros d (A & B & _). now split.
  - set (t := os :: t') in *.
    eapply (does_app _ _ _ (stage fine (map bare t))).
    + eapply does_weak; [| |apply (odts_does t [] ltac:(cbn [app]; lia) Q1); discriminate]; cbn [app].
      * intros x (A & B & C). split; [exact A|split; auto].
      * intros x (A & B & C). split; [exact A|split; [exact B|now left]].
    + eapply does_weak; [| |apply (ents_does t [] ltac:(cbn [app]; lia) Q2)]; cbn [app]; [now intros|]. intros x (A & B & _). now split.
Qed.

(** ** Assignment, selection and start *)
Variables (t : tree) (mode : N).
Definition stamped_as (d : daqst) : Prop :=
  forall e', (if c_ts c && N.testbit (d_mode d) 4 then stamp c (e_timer e') else []) = (if c_ts c && N.testbit mode 4 then stamp c (e_timer e') else []).
Definition set_up (run : bool) (done : list (N * N)) (d : daqst) : Prop :=
  rep d t /\ (d_run d = run /\ q_head (d_q d) = used s0) /\
  (forall x k, In (x, k) done -> getN (d_lfe d) x = Some k) /\ (done <> [] -> stamped_as d).

Lemma nev : forall m l s o, reachable c m l s o -> c_nevents c <= 255.
Proof. intros m l s o R. pose proof (wf_ev _ (proj1 R) (proj1 Op)). unfold c_nevents. lia. Qed.

Lemma assign_does : mode < 256 -> N.land mode 3 = 0 -> forall r done, NoDup (map fst (done ++ r)) -> c_nevents c <= 255 ->
  Forall (fun x => fst x < c_nevents c /\ snd x < lenN t /\ snd x < 256) r ->
  does (map (fun x => ok ([0xE0; mode] ++ coded c 2 (snd x) ++ coded c 2 (fst x) ++ [1; 0])) r) (set_up false done) (set_up false (done ++ r)).
Proof.
  intros Mb Ml. induction r as [|(ev & k) r IH]; intros done Nd Ne Hr; [rewrite app_nil_r; now apply does_nil|].
  inversion Hr as [|? ? (H1 & H2 & H3) Hr']; subst. cbn [fst snd] in *. cbn [map fst snd].
  eapply (does_cons _ _ _ (set_up false (done ++ [(ev, k)]))).
  - destruct (coded2 c k) as (a & b & E & F & Ha & Hb); [lia|]. destruct (coded2 c ev) as (v & w & E' & F' & Hv & Hw); [lia|]. unfold ok. rewrite E, E'. cbn [app].
    apply does_one; [repeat constructor; lia|]. intros m l s o e R Rd Ro (Rp & St & As & Ts) We.
    destruct (getN_lt_Some _ t k H2) as (os & G).
    destruct (C40_assign c m l s o e R Rd D Ro t mode a b v w 1 [0] os) as (d & A & Rp' & As' & Ts' & U & M'); auto; try (rewrite ?F, ?F'; auto; lia).
    + repeat constructor; lia.
    + pose proof (wfc _ _ _ _ R). change (lenN [_; _; _; _; _; _; _; _]) with 8. lia.
    + unfold measuring. destruct St. congruence.
    + exists d. split; [exact A|]. intros _. rewrite F' in As'. rewrite F in As'. split; [exact Rp'|]. split; [|split].
      * destruct St as (X & Y). split; [|rewrite <- Y; exact U]. unfold measuring in M'. change (s_daq (with_daq d s)) with d in M'. now destruct (d_run d).
      * intros x j I. apply (As' x j). apply in_app_iff in I. destruct I as [I|[[= <- <-]|[]]]; [|now rewrite N.eqb_refl].
        destruct (N.eqb_spec x ev) as [->|X]; [|now apply As]. exfalso. rewrite map_app in Nd. cbn [map fst] in Nd. apply NoDup_remove_2 in Nd. apply Nd, in_app_iff. left. now apply (in_map fst) in I.
      * intros _ e'. apply Ts'.
  - rewrite (snoc_cons _ done _ r). apply IH; auto. rewrite <- (snoc_cons _ done _ r). exact Nd.
Qed.
Lemma select_does : forall b done (r : list (N * N)), Forall (fun x => snd x < lenN t) r -> lenN t <= c_max_ent c ->
  does (map (fun x => ([0xDE; 2] ++ coded c 2 (snd x), [0xFF; odts_before t (snd x) mod 256; 0; 0; 0; 0; 0; 0])) r) (set_up b done) (set_up b done).
Proof.
  intros b' done. induction r as [|(ev & k) r IH]; intros Hr Lt; [now apply does_nil|].
  inversion Hr as [|? ? H2 Hr']; subst. cbn [fst snd] in *. cbn [map fst snd]. eapply does_cons; [|now apply IH].
  destruct (coded2 c k) as (a & b & E & F & Ha & Hb); [lia|]. rewrite E. cbn [app].
  apply does_one; [repeat constructor; lia|]. intros m l s o e R Rd Ro (Rp & St & As & Ts) We.
  destruct (getN_lt_Some _ t k H2) as (os & G).
  pose proof (C39_first_pid c m l s o e t 2 a b [] os R Rd D Ro Sm Rp) as X. cbv zeta in X. rewrite F in X.
  eexists. split; [apply X; auto|].
  - repeat constructor; lia.
  - pose proof (wfc _ _ _ _ R). change (lenN [_; _; _; _]) with 4. lia.
  - lia.
  - intros _. cbn [N.eqb Pos.eqb]. split; [|split; [exact St|split; [exact As|]]].
    + destruct Rp as (fo & fe & Rp). exists fo, fe. eapply rep_tables; [|exact Rp]. repeat split.
    + intros Nz e'. rewrite <- (Ts Nz e'). cbn [d_mode set_d_mode]. rewrite N.lor_spec. change (N.testbit 64 4) with false. now rewrite orb_false_r.
Qed.
Lemma synch_does : forall done, does [ok [0xDD; 1]] (set_up false done) (set_up true done).
Proof.
  intros done. apply does_one; [repeat constructor|]. intros m l s o e R Rd Ro (Rp & St & As & Ts) We.
  destruct (C40_synch c m l s o e R Rd D Ro t 1 []) as (d & A & Rp' & As' & Ts' & U & M'); auto.
  - pose proof (wfc _ _ _ _ R). change (lenN [_; _]) with 2. lia.
  - lia.
  - exists d. split; [exact A|]. intros _. split; [exact Rp'|]. split; [split|split].
    + apply M'. now left.
    + destruct St as (_ & Y). rewrite <- Y. exact U.
    + intros x k I. apply (As' x k). now apply As.
    + intros Nz e'. rewrite <- (Ts Nz e'). apply Ts'.
Qed.
Lemma start_does : forall asg, mode < 256 -> N.land mode 3 = 0 -> asg_ok c t asg -> tree_ok c t -> c_nevents c <= 255 ->
  does (start c t mode asg) (built t) (set_up true asg).
Proof.
  intros asg Mb Ml (Nd & Ha) (Ht & _) Ne. unfold start. apply (does_app _ _ _ (set_up false asg)); [|apply (does_app _ _ _ (set_up false asg)); [|apply synch_does]].
  - eapply does_weak; [| |apply (assign_does Mb Ml asg []); auto]; cbn [app]; [|now intros]. intros d (A & B & C). split; [exact A|]. split; [split; auto|]. split; [intros x k []|congruence].
  - apply select_does; [|lia]. eapply Forall_impl; [|exact Ha]. now intros x (_ & H & _).
Qed.
End Talk.

Lemma same_session_refl : forall s, same_session (with_daq (s_daq s) s) s.
Proof. intro s. unfold same_session, with_daq. destruct s. repeat split. Qed.

Lemma configure_thm : forall c m l s o t l1,
  reachable c m l s o -> ready s -> dlc_ok c -> daq_open c s -> c_max_ent c < 65536 -> dynamic c -> ~ measuring s ->
  tree_ok c t -> performs c (allocate c t ++ fill c t) l1 ->
  exists s' o', run c l1 s = Ok (s', o') /\ as_expected c (allocate c t ++ fill c t) o' /\
    represents c s' t /\ ~ measuring s' /\ used s' = used s /\ same_session (with_daq (s_daq s') s) s'.
Proof.
  intros c m l s o t l1 R RD D Op Sm Dy M Ht Hp.
  destruct (configure_does c s D RD Op Sm Dy t Ht l1 s) as (s' & o' & E & X & (_ & S & Rp & St)); auto.
  - split; [eauto|]. split; [apply same_session_refl|]. split; [unfold measuring in M; now destruct (d_run (s_daq s))|reflexivity].
  - exists s', o'. split; [exact E|]. split; [exact X|]. split; [exact Rp|]. destruct St as (St1 & St2). split; [unfold measuring; congruence|]. split; [exact St2|exact S].
Qed.

Lemma session_does : forall c m l s o t asg mode l1, let d := allocate c t ++ fill c t ++ start c t mode asg in
  reachable c m l s o -> ready s -> dlc_ok c -> daq_open c s -> c_max_ent c < 65536 -> dynamic c -> ~ measuring s ->
  tree_ok c t -> asg_ok c t asg -> mode < 256 -> N.land mode 3 = 0 -> performs c d l1 ->
  exists s' o', run c l1 s = Ok (s', o') /\ as_expected c d o' /\ K c s (set_up c s t mode true asg) s'.
Proof.
  intros c m l s o t asg mode l1 d R RD D Op Sm Dy M Ht Ha Mb Ml Hp.
  assert (X : does c s d (still s) (set_up c s t mode true asg)).
  { unfold d. rewrite app_assoc. eapply does_app; [now apply configure_does|]. apply start_does; auto. eapply nev; eauto. }
  apply (X l1 s); auto. split; [eauto|]. split; [apply same_session_refl|]. split; [unfold measuring in M; now destruct (d_run (s_daq s))|reflexivity].
Qed.
Lemma expected_samples : forall c s s' t mode asg es fs, c_nevents c <= 255 -> asg_ok c t asg -> K c s (set_up c s t mode true asg) s' ->
  expected c (s_mem s) t (c_ts c && N.testbit mode 4) asg es fs -> samples c s' t es fs.
Proof.
  intros c s s' t mode asg es fs Ne (_ & Ha) (_ & S & Rp & St & As & Ts) H.
  assert (Em : s_mem s' = s_mem s) by apply S.
  induction H as [|e ev l os es fs ts We I G Sa H IH]; [constructor|].
  assert (T : time_stamp c e s' = ts) by (apply Ts; intro Z; rewrite Z in I; destruct I).
  rewrite Forall_forall in Ha. specialize (Ha _ I). cbn [fst snd] in Ha. rewrite <- Em, <- T.
  apply sm_cons; auto; [lia|now apply As|now rewrite T].
Qed.
Lemma measurement_thm : forall c m l s o t asg mode l1 es fs, let d := allocate c t ++ fill c t ++ start c t mode asg in
  reachable c m l s o -> ready s -> dlc_ok c -> daq_open c s -> c_max_ent c < 65536 -> dynamic c -> stamp_ok c -> ~ measuring s ->
  tree_ok c t -> asg_ok c t asg -> mode < 256 -> N.land mode 3 = 0 -> performs c d l1 ->
  expected c (s_mem s) t (c_ts c && N.testbit mode 4) asg es fs -> used s + lenN fs <= 4 ->
  exists s' o1 o2, run c (l1 ++ triggers es) s = Ok (s', o1 ++ o2) /\ as_expected c d o1 /\ emits o2 fs.
Proof.
  intros c m l s o t asg mode l1 es fs d R RD D Op Sm Dy So M Ht Ha Mb Ml Hp He Hu.
  destruct (session_does c m l s o t asg mode l1 R RD D Op Sm Dy M Ht Ha Mb Ml Hp) as (s1 & o1 & E1 & X1 & K1).
  pose proof (expected_samples c s s1 t mode asg es fs (nev c s Op Sm m l s o R) Ha K1 He) as Sp.
  destruct K1 as ((m1 & l2 & o3 & R1) & S & Rp & (St1 & St2) & As & Ts).
  destruct (fifo c t es fs m1 l2 s1 o3 R1 Sm So Rp St1 Sp) as (s2 & o2 & E2 & Em & _); [unfold used in *; rewrite St2; exact Hu|].
  exists s2, o1, o2. split; [|auto]. rewrite (run_app_val c l1 _ s s1 o1 E1). unfold andthen. cbn [bind]. rewrite E2. reflexivity.
Qed.
Lemma samples_app : forall c s t e1 f1 e2 f2, samples c s t e1 f1 -> samples c s t e2 f2 -> samples c s t (e1 ++ e2) (f1 ++ f2).
Proof. intros c s t e1 f1 e2 f2 H1 H2. induction H1; [exact H2|]. cbn [app]. rewrite <- app_assoc. econstructor; eauto. Qed.
Lemma breaks_thm : forall c m l s o t asg mode l1 es fs es' fs', let d := allocate c t ++ fill c t ++ start c t mode asg in
  reachable c m l s o -> ready s -> dlc_ok c -> daq_open c s -> c_max_ent c < 65536 -> dynamic c -> stamp_ok c -> ~ measuring s ->
  tree_ok c t -> asg_ok c t asg -> mode < 256 -> N.land mode 3 = 0 -> performs c d l1 ->
  expected c (s_mem s) t (c_ts c && N.testbit mode 4) asg es fs -> 1 <= used s + lenN fs <= 4 ->
  expected c (s_mem s) t (c_ts c && N.testbit mode 4) asg es' fs' -> 4 < used s + lenN fs + lenN fs' ->
  run c (l1 ++ triggers (es ++ es')) s = UB OobQueue.
Proof.
  intros c m l s o t asg mode l1 es fs es' fs' d R RD D Op Sm Dy So M Ht Ha Mb Ml Hp He Hu He' Hu'.
  destruct (session_does c m l s o t asg mode l1 R RD D Op Sm Dy M Ht Ha Mb Ml Hp) as (s1 & o1 & E1 & X1 & K1).
  pose proof (nev c s Op Sm m l s o R) as Ne.
  pose proof (expected_samples c s s1 t mode asg es fs Ne Ha K1 He) as Sp. pose proof (expected_samples c s s1 t mode asg es' fs' Ne Ha K1 He') as Sp'.
  destruct K1 as ((m1 & l2 & o3 & R1) & S & Rp & (St1 & St2) & As & Ts).
  rewrite (run_app_val c l1 _ s s1 o1 E1). unfold andthen. cbn [bind].
  assert (U1 : used s1 = used s) by exact St2.
  destruct (fifo c t es fs m1 l2 s1 o3 R1 Sm So Rp St1 Sp) as (s2 & o2 & E2 & Em & Q & U2); [rewrite U1; lia|].
  unfold triggers in *. rewrite map_app. rewrite (run_app_val c _ _ s1 s2 o2 E2). unfold andthen. cbn [bind].
  assert (R2 : reachable c m1 (l2 ++ triggers es) s2 (o3 ++ o2)).
  { eapply reach_app; eauto. clear - Sp. induction Sp; [constructor|]. constructor; [split; auto|exact IHSp]. }
  fold (triggers es').
  rewrite (fifo_ub c t es' fs' m1 _ s2 _ R2 Sm So (same_rep _ _ _ _ Q Rp) (same_run _ _ Q St1) (same_samples _ _ _ _ _ _ Q Sp')); [reflexivity|lia|lia].
Qed.
