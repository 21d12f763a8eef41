(** The reference slave behind the transport layers. *)
From Coq Require Import NArith ZArith List Bool Lia ZifyBool ZifyNat ZifyN.
From Verif Require Import Base Config State Core Spec SpecFrames Steps ProofsWrite Eth SpecSxi SpecEth Net Tcp SpecTcp ProofsTcp SpecDaq SpecMem Sxi Serial SpecSerial ProofsSerial SpecRef ProofsRef ProofsRef2 SpecStack.
Import ListNotations.
Open Scope N_scope.

Lemma commands_ops : forall c E qs k, Forall command qs -> operations c (timed E k qs) = commands E k (map (frame c) qs).
Proof.
  intros c E qs. induction qs as [|q qs IH]; intros k F; [reflexivity|]. inversion F as [|? ? Hq F']; subst.
  cbn [timed operations map commands fst snd]. f_equal; [destruct q; cbn in Hq; try contradiction; reflexivity|]. exact (IH (k + 1) F').
Qed.
Lemma lenN_map : forall A B (f : A -> B) l, lenN (map f l) = lenN l.
Proof. intros. unfold lenN. now rewrite map_length. Qed.
Lemma gets_own : forall c p rs o, Forall2 (shows c) rs o -> Forall2 (gets c) (map (pair p) rs) (map (pair p) o).
Proof. intros c p rs o F. induction F; cbn [map]; constructor; auto. split; auto. Qed.

Lemma run_bytes : forall c E qs k a rs a', wf_cfg c -> Forall command qs -> ref_run c a (timed E k qs) rs a' -> Forall bytes (map (frame c) qs).
Proof.
  intros c E qs. induction qs as [|q qs IH]; intros k a rs a' W F H; [constructor|]. inversion F as [|? ? Hq F']; subst. cbn [timed] in H. inversion H; subst.
  cbn [map]. constructor; [|eapply IH; eauto].
  match goal with We : wf_env c (E k), En : encodable c q |- _ => pose proof (op_wf c _ q W We En) as X end.
  destruct X as (_ & X). destruct q; cbn [command] in Hq; try contradiction; exact X.
Qed.

Section Stack.
Variables (c : cfg) (m : mem) (E : N -> env).
Variables (D : dlc_ok c) (Sm : c_max_ent c < 65536) (St : stamp_ok c).

Lemma talks_visits : forall k a ws os a', talks c E k a ws os a' -> forall vs l s o, Forall2 (asks c) vs ws -> reachable c m l s o -> related c a s ->
  Forall (fun v => Forall bytes (said v)) vs /\
  exists s' o' l', visits c E k vs s = Ok (s', o') /\ Forall2 (gets c) os o' /\ related c a' s' /\ reachable c m l' s' (o ++ map snd o').
Proof.
  intros k a ws os a' H. induction H as [k a|k a p qs rs a1 t os a2 Hr Ht IH]; intros vs l s o F R V; inversion F as [|v w vs' ws' (A1 & A2 & A3) F']; subst.
  - split; [constructor|]. exists s, [], l. cbn [visits map]. rewrite app_nil_r. auto.
  - cbn [fst snd] in *. pose proof (run_bytes c E qs k _ _ _ (proj1 R) A3 Hr) as Bq.
    destruct (run_thm c m D Sm St _ _ _ _ Hr _ _ _ R V) as (s1 & o1 & E1 & R1 & F1 & V1). rewrite commands_ops in E1, R1 by exact A3.
    destruct (IH vs' _ _ _ F' R1 V1) as (B2 & s2 & o2 & l2 & E2 & F2 & V2 & R2).
    split; [constructor; [now rewrite A2|exact B2]|].
    exists s2, (map (pair (fst v)) o1 ++ o2), l2. cbn [visits]. rewrite A2, E1. cbn [bind]. rewrite lenN_map, E2. cbn [bind]. split; [reflexivity|].
    split; [apply Forall2_app; [rewrite A1; now apply gets_own|exact F2]|]. split; [exact V2|].
    rewrite map_app, map_map. cbn [snd]. rewrite map_id, app_assoc. exact R2.
Qed.

Lemma gets_to : forall os o p, Forall2 (gets c) os o -> Forall2 (shows c) (replies_to p os) (map snd (filter (fun x => fst x =? p) o)).
Proof.
  intros os o p F. induction F as [|r x os o (A & B) F IH]; unfold replies_to in *; [constructor|]. cbn [filter]. rewrite A.
  destruct (fst x =? p); cbn [map]; [constructor|]; auto.
Qed.
Lemma shows_reads : forall rs o, Forall2 (shows c) rs o -> forall n, Forall2 (fun r x => reads c r (snd x)) rs (numbered c n o).
Proof.
  intros rs o F. induction F as [|r x rs o A F IH]; intro n; cbn [numbered]; constructor; auto. cbn [snd]. destruct r; cbn [shows reads] in *; tauto.
Qed.
Lemma F2_length : forall A B (P : A -> B -> Prop) l r, Forall2 P l r -> length l = length r.
Proof. intros A B P l r F. induction F; cbn [length]; auto. Qed.

Lemma stack_gen : forall s0 vs ws os a n X, wf_cfg c -> wf_mem m -> boot c m = Ok s0 -> t_st n = s0 ->
  (forall k, wf_env c (E k)) -> c_len_size c <> 0 -> Forall2 (asks c) vs ws -> talks c E 0 (power_up c m) ws os a -> seen X = visits c E 0 vs (t_st n) ->
  exists n' o, X = Ok (n', o) /\ Forall2 (gets c) os o /\ related c a (t_st n') /\
    (NoDup (map fst ws) -> forall p, In p (map fst ws) -> exists fr ctr, decode c (length (replies_to p os)) (bytes_to p o) = Some fr /\
       Forall2 (fun r x => reads c r (snd x)) (replies_to p os) fr /\ map fst fr = map (fun i => (ctr + N.of_nat i) mod 256 ^ c_ctr_size c) (seq 0 (length fr))).
Proof.
  intros s0 vs ws os a n X W Wm B Hn He Hl Fw T S.
  assert (R : reachable c m [] s0 []) by (split; [exact W|]; split; [exact Wm|]; split; [constructor|]; exists s0; split; [exact B|reflexivity]).
  destruct (talks_visits 0 _ _ _ _ T vs [] s0 [] Fw R (boot_related c m s0 W Wm Sm B)) as (Bv & s' & o' & l' & Ev & F & V & R').
  rewrite Hn, Ev in S. unfold seen in S.
  destruct X as [(n' & o)|w]; cbn [bind] in S; [|discriminate]. injection S as <- <-.
  exists n', o. split; [reflexivity|]. split; [exact F|]. split; [exact V|]. intros Nd p Ip.
  assert (Ef : map fst vs = map fst ws) by (clear -Fw; induction Fw as [|v w vs ws (A & _) F IH]; cbn [map]; congruence).
  rewrite <- Ef in Nd, Ip. apply in_map_iff in Ip. destruct Ip as (v & <- & Iv). apply in_split in Iv. destruct Iv as (vs1 & vs2 & ->).
  destruct (decodes_thm c m [] s0 [] E _ (t_st n') o R He Bv Hl Nd Ev vs1 v vs2 eq_refl) as (s1 & s2 & ov & _ & M & Dc).
  pose proof (gets_to os o (fst v) F) as G. rewrite M in G. rewrite <- (F2_length _ _ _ _ _ G) in Dc.
  exists (numbered c (s_ctr s1) ov), (s_ctr s1). split; [exact Dc|]. split; [now apply shows_reads|].
  clear. generalize (s_ctr s1). induction ov as [|x ov IH]; intro k; [reflexivity|]. cbn [numbered map length seq fst]. f_equal; [f_equal; lia|].
  rewrite IH, <- seq_shift, map_map. apply map_ext. intro i. f_equal. lia.
Qed.

Lemma tcp_thm : forall s0 blen vs qs ws os a n, wf_cfg c -> wf_mem m -> boot c m = Ok s0 -> t_st n = s0 -> t_tl n = false -> blen < 65536 ->
  (forall k, wf_env c (E k)) -> c_len_size c <> 0 -> Forall2 (finished blen (c_ctobuf c)) vs qs -> Forall2 (asks c) vs ws -> talks c E 0 (power_up c m) ws os a ->
  exists n' o, tcp_serve c blen E qs n = Ok (n', o) /\ Forall2 (gets c) os o /\ related c a (t_st n') /\
    (NoDup (map fst ws) -> forall p, In p (map fst ws) -> exists fr ctr, decode c (length (replies_to p os)) (bytes_to p o) = Some fr /\
       Forall2 (fun r x => reads c r (snd x)) (replies_to p os) fr /\ map fst fr = map (fun i => (ctr + N.of_nat i) mod 256 ^ c_ctr_size c) (seq 0 (length fr))).
Proof. intros s0 blen vs qs ws os a n W Wm B Hn Ht Hb He Hl Fq Fw T. eapply stack_gen; eauto. apply (visits_thm c blen E vs qs n Hb Fq Ht). Qed.
Lemma tcp_open_thm : forall s0 blen vs v qs q r ws os a n, wf_cfg c -> wf_mem m -> boot c m = Ok s0 -> t_st n = s0 -> t_tl n = false -> blen < 65536 ->
  (forall k, wf_env c (E k)) -> c_len_size c <> 0 -> Forall2 (finished blen (c_ctobuf c)) vs qs -> open_end blen (c_ctobuf c) v q ->
  Forall2 (asks c) (vs ++ [v]) ws -> talks c E 0 (power_up c m) ws os a ->
  exists n' o, tcp_serve c blen E (qs ++ q :: r) n = Ok (n', o) /\ Forall2 (gets c) os o /\ related c a (t_st n') /\
    (NoDup (map fst ws) -> forall p, In p (map fst ws) -> exists fr ctr, decode c (length (replies_to p os)) (bytes_to p o) = Some fr /\
       Forall2 (fun r x => reads c r (snd x)) (replies_to p os) fr /\ map fst fr = map (fun i => (ctr + N.of_nat i) mod 256 ^ c_ctr_size c) (seq 0 (length fr))).
Proof. intros s0 blen vs v qs q r ws os a n W Wm B Hn Ht Hb He Hl Fq Hq Fw T. eapply stack_gen; eauto. now apply (visits_thm c blen E vs qs n Hb Fq Ht). Qed.

Lemma related_rx : forall a s s', s' = set_s_in (s_in s') s -> related c a s -> related c a s'.
Proof.
  intros a s s' -> V. generalize (s_in s'). intro z. destruct V as [A B C X F G H I J]. constructor; auto.
  intro K. eapply measures_daq; [|exact (I K)]. reflexivity.
Qed.
Lemma serial_ref_thm : forall s0 buf fs l more lr rs a, wf_cfg c -> wf_mem m -> boot c m = Ok s0 -> 12 <= lenN buf <= 2 ^ 16 ->
  Forall (SpecSxi.fits (lenN buf)) fs -> Forall (fun f => good c (f_data f)) fs ->
  SpecSxi.quiet 0 (polls l) -> octets (polls l) ++ more = wires fs -> Forall around (others l) -> Forall key_local (envs l) ->
  weave 0 fs l = operations c lr -> ref_run c (power_up c m) lr rs a ->
  exists r s o, serial_run c l (sxi_init buf) s0 = Ok (r, s, o) /\ Forall2 (shows c) rs o /\ related c a s.
Proof.
  intros s0 buf fs l more lr rs a W Wm B Hb Hf Hg Hq Ho Ha Hk Hw H.
  assert (R : reachable c m [] s0 []) by (split; [exact W|]; split; [exact Wm|]; split; [constructor|]; exists s0; split; [exact B|reflexivity]).
  destruct (run_thm c m D Sm St _ _ _ _ H [] s0 [] R (boot_related c m s0 W Wm Sm B)) as (s & o & Er & _ & F & V).
  pose proof (serial_thm c m [] s0 [] buf fs l more R Hb Hf Hg Hq Ho Ha Hk) as X. rewrite Hw, Er in X. unfold same_but_rx, outcome in X.
  destruct (serial_run c l (sxi_init buf) s0) as [((r & s') & o')|w]; cbn [bind] in X; [|contradiction]. destruct X as (-> & X).
  exists r, s', o. split; [reflexivity|]. split; [exact F|]. eapply related_rx; eauto.
Qed.
End Stack.
