(** Number and kind of the responses of every handler. *)
From Coq Require Import NArith ZArith List Bool Lia ZifyBool ZifyNat ZifyN.
From Verif Require Import Base Config Codec Checksum State Queue Daq Core Spec Lists Effects Handlers HTx HInv.
Import ListNotations.
Open Scope N_scope.

Lemma hd_take : forall A n (l : list A), 1 <= n -> hd_error (takeN n l) = hd_error l.
Proof. intros. unfold takeN. destruct (N.to_nat n) eqn:E; [lia|]. destruct l; reflexivity. Qed.
Lemma hd_splice0 : forall A (l : list A) b t, hd_error (splice l 0 (b :: t)) = Some b.
Proof. reflexivity. Qed.
Lemma hd_splice1 : forall A (l : list A) off bs, 1 <= off -> l <> [] -> hd_error (splice l off bs) = hd_error l.
Proof. intros. unfold splice. destruct l; [congruence|]. unfold takeN. destruct (N.to_nat off) eqn:E; [lia|]. reflexivity. Qed.
Lemma splice_nonnil : forall A (l : list A) b t, splice l 0 (b :: t) <> [].
Proof. intros. unfold splice. cbn. discriminate. Qed.

Lemma send8_r : forall c len b t s s' o, send8 c len (b :: t) s = Ok (s', o) ->
  exists ob n, s' = bump c (set_s_out ob s) /\ o = [mkPkt false (mk_hdr c n (s_ctr s)) (takeN n ob)] /\
    (dlc_ok c -> 1 <= len <= 8 -> 8 <= c_max_cto c -> hd_error (takeN n ob) = Some b).
Proof.
  intros c len b t s s' o H. apply send8_Ok in H. destruct H as (ob & H1 & H2 & -> & -> & H3 & H4).
  exists ob, (len8 c len). split; [reflexivity|]. split; [reflexivity|]. intros D L M.
  assert (1 <= len8 c len <= 8) by (unfold len8; destruct (c_max_dlc c) eqn:E; [rewrite (D E)|]; lia).
  rewrite H3 by lia. rewrite hd_take by lia. rewrite take_cons by lia. apply hd_splice0.
Qed.

Lemma send_cto_r : forall c len s s' o, send_cto c len s = Ok (s', o) ->
  s' = bump c s /\ o = [mkPkt false (mk_hdr c len (s_ctr s)) (takeN len (s_out s))] /\
  (1 <= len -> hd_error (takeN len (s_out s)) = hd_error (s_out s)).
Proof. intros. apply send_cto_Ok in H. destruct H as (H & -> & ->). repeat split; auto. intros. now apply hd_take. Qed.

Lemma poke_r : forall off bs s s', poke off bs s = Ok s' ->
  exists ob, s' = set_s_out ob s /\
    (off = 0 -> forall b t, bs = b :: t -> ob <> [] /\ hd_error ob = Some b) /\
    (1 <= off -> s_out s <> [] -> ob <> [] /\ hd_error ob = hd_error (s_out s)).
Proof.
  intros. apply poke_Ok in H. destruct H as (H & ->). eexists. split; [reflexivity|]. split.
  - intros -> b t ->. split; [apply splice_nonnil|apply hd_splice0].
  - intros. rewrite hd_splice1 by auto. split; auto. unfold splice. destruct (s_out s); [congruence|].
    unfold takeN. destruct (N.to_nat off) eqn:E; [lia|]. discriminate.
Qed.

Lemma copy_out_r : forall c e x a n off s s', copy_out c e x a n off s = Ok s' ->
  exists ob, s' = set_s_out ob s /\ (1 <= off -> s_out s <> [] -> ob <> [] /\ hd_error ob = hd_error (s_out s)).
Proof.
  intros. unfold copy_out in H. invs. apply poke_r in H. destruct H as (ob & -> & _ & H). eauto.
Qed.

Ltac leaf_r :=
  match goal with
  | H : send8 _ _ (_ :: _) _ = Ok _ |- _ => apply send8_r in H; destruct H as (? & ? & ? & ? & ?)
  | H : send8 _ _ ((_ :: _) ++ _) _ = Ok _ |- _ => cbn [app] in H; apply send8_r in H; destruct H as (? & ? & ? & ? & ?)
  | H : send_cto _ _ _ = Ok _ |- _ => apply send_cto_r in H; destruct H as (? & ? & ?)
  | H : poke _ _ _ = Ok _ |- _ => apply poke_r in H; destruct H as (? & ? & ? & ?)
  | H : copy_out _ _ _ _ _ _ _ = Ok _ |- _ => apply copy_out_r in H; destruct H as (? & ? & ?)
  | _ => leaf
  end.
Ltac crush_r := unfold_h; repeat (first [inv1 | split1 | leaf_r]; subst; try discriminate).

Ltac one_resp :=
  eexists; split; [reflexivity|split; [reflexivity|]]; cbn [p_data];
  first [ left; solve [match goal with H : _ -> _ -> _ -> hd_error _ = _ |- _ => apply H; [assumption|lia|lia] end]
        | right; solve [match goal with H : _ -> _ -> _ -> hd_error _ = _ |- _ => apply H; [assumption|lia|lia] end]
        | left ].

Ltac use_hd :=
  repeat match goal with
    | H : 2 = 0 -> _ |- _ => clear H
    | H : 1 = 0 -> _ |- _ => clear H
    | H : 1 <= 0 -> _ |- _ => clear H
    | H : 0 = 0 -> forall b t, _ = b :: t -> _ |- _ => destruct (H eq_refl _ _ eq_refl) as (? & ?); clear H
    end;
  repeat match goal with
    | H : 1 <= 1 -> s_out _ <> [] -> _ |- _ => destruct H as (? & ?); [lia|ss; assumption|]
    end.

Lemma upload_block_resp : forall c e s s' o, 8 <= c_max_cto c -> s_sact s = true -> upload_block c e s = Ok (s', o) ->
  exists p, o = [p] /\ resp p.
Proof.
  intros c e s s' o Wc A H. unfold upload_block in H. rewrite A in H. cbn [negb] in H.
  apply bind_Ok in H. destruct H as (s1 & H1 & H). apply bind_Ok in H. destruct H as (s2 & H2 & H).
  unfold andthen in H. apply bind_Ok in H. destruct H as ((s3 & o3) & H3 & H).
  apply bind_Ok in H. destruct H as ((s4 & o4) & H4 & H). apply Ok_inj in H. injection H as <- <-.
  assert (o4 = []) as -> by (destruct (_ =? _); invs; auto).
  apply poke_r in H1. destruct H1 as (ob1 & -> & P1 & _). destruct (P1 eq_refl _ _ eq_refl) as (N1 & E1).
  apply copy_out_r in H2. destruct H2 as (ob2 & -> & P2). destruct P2 as (N2 & E2); [lia|exact N1|].
  apply send_cto_r in H3. destruct H3 as (-> & -> & P3).
  eexists. split; [reflexivity|]. split; [reflexivity|left]. cbn [p_data].
  rewrite P3; [ss; rewrite E2; ss; exact E1|]. destruct (_ <=? _), (c_max_dlc c); lia.
Qed.

Lemma upload_resp : forall c e n s s' o, 8 <= c_max_cto c -> upload c e n s = Ok (s', o) -> exists p, o = [p] /\ resp p.
Proof.
  intros c e n s s' o Wc H. unfold upload in H. destruct (c_sbm c).
  - apply bind_Ok in H. destruct H as (s1 & H1 & H). apply sbm_set_active_Ok in H1. subst s1.
    eapply upload_block_resp in H; auto.
  - apply bind_Ok in H. destruct H as (s1 & H1 & H). apply bind_Ok in H. destruct H as (s2 & H2 & H).
    apply poke_r in H1. destruct H1 as (ob1 & -> & P1 & _). destruct (P1 eq_refl _ _ eq_refl) as (N1 & E1).
    apply copy_out_r in H2. destruct H2 as (ob2 & -> & P2). destruct P2 as (N2 & E2); [lia|exact N1|].
    apply send_cto_r in H. destruct H as (-> & -> & P3).
    eexists. split; [reflexivity|]. split; [reflexivity|left]. cbn [p_data].
    rewrite P3; [ss; rewrite E2; ss; exact E1|]. destruct (c_max_dlc c); lia.
Qed.

Ltac unfold_up :=
  unfold h_upload, h_short_upload, pgm_idle, check_mem, send_result, err, pos in *.

Lemma resp_entries : forall c e, 8 <= c_max_cto c -> dlc_ok c -> entries c (fun k h => forall s s' o,
  h e s = Ok (s', o) ->
  (exists p, o = [p] /\ resp p) \/ (o = [] /\ silent c k (s_in s') s s') \/
  ((k = 0xDE \/ k = 0xD8) /\ d_lcnt (s_daq s) <= gw c (s_in s) 2 mod we c /\ exists p q, o = [p; q] /\ resp p /\ resp q)).
Proof.
  intros c e Wc D. apply table_each; intros.
  all: try (match goal with H : h_upload _ _ _ = _ |- _ => idtac | H : h_short_upload _ _ _ = _ |- _ => idtac end;
            left; unfold_up; repeat (first [inv1 | split1 | leaf_r]; subst; try discriminate);
            first [eapply upload_resp; eassumption | one_resp]).
  all: crush_r.
  all: first [ left; one_resp; solve [eauto 2] | idtac ].
  all: use_hd.
  all: first [ left; eexists; split; [reflexivity|]; split; [reflexivity|left]; cbn [p_data app];
               match goal with H : 1 <= _ -> hd_error _ = _ |- _ =>
                 rewrite H by (ss; splitif; lia); ss; congruence end | idtac ].
  all: first [ right; left; split; [reflexivity|]; unfold silent; ss; now auto 6 | idtac ].
  1-2: right; left; split; [reflexivity|]; unfold silent; ss; do 4 right; split; [reflexivity|]; destruct (c_chunked c); cbn in *; split; auto; lia.
  - right; left; split; [reflexivity|]. unfold silent. ss. right; left. split; [reflexivity|lia].
  - right; left; split; [reflexivity|]. unfold silent. ss. do 2 right; left. split; [reflexivity|]. split; [assumption|lia].
  - right; left; split; [reflexivity|]. unfold silent. ss. do 3 right; left. split; [reflexivity|].
    split; [destruct (s_mact s); auto|]. ss_in Heqb1. now apply N.eqb_neq.
  - right; right. split; [auto|]. split; [lia|]. do 2 eexists. split; [reflexivity|].
    split; (split; [reflexivity|]); cbn [p_data]; [right|right]; auto;
    match goal with H : _ -> _ -> _ -> hd_error ?x = _ |- hd_error ?x = _ => apply H; [assumption|lia|lia] end.
  - right; right. split; [auto|]. split; [lia|]. do 2 eexists. split; [reflexivity|].
    split; (split; [reflexivity|]); cbn [p_data]; [right|left]; auto;
    match goal with H : _ -> _ -> _ -> hd_error ?x = _ |- hd_error ?x = _ => apply H; [assumption|lia|lia] end.
  - right; right. split; [auto|]. split; [lia|]. do 2 eexists. split; [reflexivity|].
    split; (split; [reflexivity|]); cbn [p_data]; [right|right]; auto;
    match goal with H : _ -> _ -> _ -> hd_error ?x = _ |- hd_error ?x = _ => apply H; [assumption|lia|lia] end.
Qed.
