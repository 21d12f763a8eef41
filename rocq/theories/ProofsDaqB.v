(** The DAQ tables over whole executions (C32, C33, C34). *)
From Coq Require Import NArith ZArith List Bool Lia ZifyBool ZifyNat ZifyN.
From Verif Require Import Base Config Codec Checksum State Queue Daq Core Spec Lists Effects Handlers HTx HInv HInv2
  HFields HResp DaqInv HSpec Steps Demo Ops ProofsSession Exec ProofsFrames SpecProt ProofsProt SpecMem ProofsMem SpecDaq ProofsDaqA.
Import ListNotations.
Open Scope N_scope.
Ltac Zify.zify_post_hook ::= Z.div_mod_to_equations.

(** ** Answers *)
Lemma padded_hd : forall c b l, hd_error (padded c (b :: l)) = Some b.
Proof. intros. unfold padded. destruct (c_max_dlc c); reflexivity. Qed.
Lemma padded_two : forall c a b, firstn 2 (padded c [a; b]) = [a; b].
Proof. intros. unfold padded. destruct (c_max_dlc c); reflexivity. Qed.
Lemma accepted_sends : forall c o l, sends o (padded c (0xFF :: l)) -> accepted o.
Proof. intros c o l (p & -> & A & B). exists p. rewrite B. now rewrite padded_hd. Qed.
Lemma rejected_sends : forall c o code, sends o (padded c [0xFE; code]) -> rejected o code.
Proof. intros c o k (p & -> & A & B). exists p. rewrite B, padded_two. auto. Qed.
Lemma not_both : forall o k, accepted o -> rejected o k -> False.
Proof. intros o k (p & -> & A & B) (q & E & C & D). injection E as <-. destruct (p_data p); cbn in *; congruence. Qed.
Lemma rejected_one : forall o j k, rejected o j -> rejected o k -> j = k.
Proof. intros o j k (p & -> & A & B) (q & E & C & D). injection E as <-. congruence. Qed.

Lemma result_out : forall c r s s' o, wf_cfg c -> dlc_ok c -> lenN (s_out s) = c_max_cto c -> r < 256 ->
  send_result c r s = Ok (s', o) -> s_daq s' = s_daq s /\ (r = 0xFF /\ accepted o \/ r <> 0xFF /\ rejected o r).
Proof.
  intros c r s s' o W D L Hr H. unfold send_result in H. destruct (N.eqb_spec r 0xFF) as [->|N].
  - destruct (pos_frame c s W D L) as (ob & o1 & _ & E & P). rewrite E in H. injection H as <- <-. split; [reflexivity|].
    left. split; auto. eapply accepted_sends; eauto.
  - destruct (err_frame c r s W D L Hr) as (ob & o1 & _ & E & P). rewrite E in H. injection H as <- <-. split; [reflexivity|].
    right. split; auto. eapply rejected_sends; eauto.
Qed.
Lemma pos_out : forall c s s' o, wf_cfg c -> dlc_ok c -> lenN (s_out s) = c_max_cto c ->
  pos c s = Ok (s', o) -> s_daq s' = s_daq s /\ accepted o.
Proof.
  intros. destruct (result_out c 0xFF s s' o H H0 H1 ltac:(lia) H2) as (A & [(_ & B)|(B & _)]); [auto|congruence].
Qed.

Section Out.
Variables (c : cfg) (W : wf_cfg c) (D : dlc_ok c).

(** The answer is an error other than [0x29], and the DAQ state is as before. *)
Definition refusal (s s' : st) (o : list pkt) : Prop := s_daq s' = s_daq s /\ exists k, k <> 0xFF /\ k <> 0x29 /\ rejected o k.

Lemma pgm_guard : forall s k s' o, lenN (s_out s) = c_max_cto c -> pgm_idle c s k = Ok (s', o) -> k = Ok (s', o) \/ refusal s s' o.
Proof.
  intros s k s' o L H. unfold pgm_idle in H. destruct (_ && _); [right|auto].
  destruct (result_out c 0x12 s s' o W D L ltac:(lia) H) as (A & [(B & _)|(_ & B)]); [lia|]. split; [auto|]. exists 0x12. split; [lia|]. split; [lia|auto].
Qed.
Lemma lock_guard : forall s k s' o, lenN (s_out s) = c_max_cto c -> unlocked c 4 s k = Ok (s', o) -> k = Ok (s', o) \/ refusal s s' o.
Proof.
  intros s k s' o L H. unfold unlocked in H. destruct (is_protected c 4 s); [right|auto].
  destruct (result_out c 0x25 s s' o W D L ltac:(lia) H) as (A & [(B & _)|(_ & B)]); [lia|]. split; [auto|]. exists 0x25. split; [lia|]. split; [lia|auto].
Qed.
Lemma daq_guard : forall s k s' o, lenN (s_out s) = c_max_cto c -> daq_stopped c s k = Ok (s', o) -> k = Ok (s', o) \/ refusal s s' o.
Proof.
  intros s k s' o L H. unfold daq_stopped in H. destruct (_ && _); [right|auto].
  destruct (result_out c 0x11 s s' o W D L ltac:(lia) H) as (A & [(B & _)|(_ & B)]); [lia|]. split; [auto|]. exists 0x11. split; [lia|]. split; [lia|auto].
Qed.

Ltac guards H := repeat match type of H with
  | pgm_idle _ _ _ = _ => apply pgm_guard in H; [destruct H as [H|H]; [|now left]|assumption]
  | unlocked _ _ _ _ = _ => apply lock_guard in H; [destruct H as [H|H]; [|now left]|assumption]
  | daq_stopped _ _ _ = _ => apply daq_guard in H; [destruct H as [H|H]; [|now left]|assumption] end.

Lemma free_out : forall e s s' o, lenN (s_out s) = c_max_cto c -> h_free_daq c e s = Ok (s', o) ->
  refusal s s' o \/ s_daq s' = daq_free c (s_daq s) /\ accepted o.
Proof.
  intros e s s' o L H. unfold h_free_daq in H. guards H. right.
  destruct (result_out c 0xFF (upd_daq (daq_free c) s) s' o W D L ltac:(lia) H) as (A & [(_ & B)|(B & _)]); [auto|congruence].
Qed.

(** Outcome of the allocation functions. *)
Lemma seq_code : forall d d' r, seq_error c d = Ok (d', r) -> r = 0x29 /\
  (c_reset_seq c = false /\ d' = d \/ c_reset_seq c = true /\ daq_init c d = Ok d').
Proof. intros d d' r H. unfold seq_error in H. destruct (c_reset_seq c); [apply bind_Ok in H; destruct H as (x & H1 & H)|]; injection H as <- <-; auto. Qed.
Definition alloc_out (d d' : daqst) (r : N) : Prop :=
  r = 0xFF \/ r = 0x30 /\ d' = d \/ r = 0x29 /\ (c_reset_seq c = false /\ d' = d \/ c_reset_seq c = true /\ daq_init c d = Ok d').
Lemma alloc_codes : forall n d d' r, daq_alloc c n d = Ok (d', r) -> alloc_out d d' r.
Proof.
  intros n d d' r H. unfold daq_alloc in H. destruct (negb _); [right; right; now apply seq_code|]. destruct (_ <? _); [injection H as <- <-; right; left; auto|].
  destruct (existsb _ _); [discriminate|]. injection H as <- <-. now left.
Qed.
Lemma alloc_odt_codes : forall l n d d' r, daq_alloc_odt c l n d = Ok (d', r) -> alloc_out d d' r.
Proof.
  intros l n d d' r H. unfold daq_alloc_odt in H. destruct (negb _); [right; right; now apply seq_code|]. destruct (_ <? _); [injection H as <- <-; right; left; auto|].
  apply bind_Ok in H. destruct H as (x & _ & H). apply bind_Ok in H. destruct H as ((? & ?) & _ & H). injection H as <- <-. now left.
Qed.
Lemma alloc_entry_codes : forall l k n d d' r, daq_alloc_entry c l k n d = Ok (d', r) -> alloc_out d d' r.
Proof.
  intros l k n d d' r H. unfold daq_alloc_entry in H. destruct (negb _); [right; right; now apply seq_code|]. destruct (_ <? _); [injection H as <- <-; right; left; auto|].
  apply bind_Ok in H. destruct H as ((? & ?) & _ & H). apply bind_Ok in H. destruct H as (? & _ & H). injection H as <- <-. now left.
Qed.

Definition allocated (f : daqst -> out (daqst * N)) (s s' : st) (o : list pkt) : Prop :=
  f (s_daq s) = Ok (s_daq s', 0xFF) /\ accepted o \/
  s_daq s' = s_daq s /\ (rejected o 0x30 \/ c_reset_seq c = false /\ rejected o 0x29) \/
  c_reset_seq c = true /\ rejected o 0x29 /\ daq_init c (s_daq s) = Ok (s_daq s').
Lemma allocated_out : forall f s s' o, lenN (s_out s) = c_max_cto c -> (forall d' r, f (s_daq s) = Ok (d', r) -> alloc_out (s_daq s) d' r) ->
  ('(d, r) <- f (s_daq s) ;; send_result c r (set_s_daq d s)) = Ok (s', o) -> allocated f s s' o.
Proof.
  intros f s s' o L F H. apply bind_Ok in H. destruct H as ((d & r) & H1 & H). specialize (F _ _ H1).
  assert (Hr : r < 256) by (unfold alloc_out in F; lia).
  destruct (result_out c r (set_s_daq d s) s' o W D L Hr H) as (A & B). ss_in A. subst d. unfold allocated.
  destruct F as [->|[(-> & E)|(-> & [(E1 & E2)|(E1 & E2)])]]; (destruct B as [(B1 & B2)|(B1 & B2)]; [try lia|try congruence]); auto 7.
Qed.

Lemma alloc_daq_out : forall e s s' o, lenN (s_out s) = c_max_cto c -> h_alloc_daq c e s = Ok (s', o) ->
  refusal s s' o \/ allocated (daq_alloc c (gw c (s_in s) 2 mod we c)) s s' o.
Proof.
  intros e s s' o L H. unfold h_alloc_daq in H. guards H. right. apply allocated_out; auto. intros. eapply alloc_codes; eauto.
Qed.
Lemma alloc_odt_out : forall e s s' o, lenN (s_out s) = c_max_cto c -> h_alloc_odt c e s = Ok (s', o) ->
  refusal s s' o \/ allocated (daq_alloc_odt c (gw c (s_in s) 2 mod we c) (gb (s_in s) 4)) s s' o.
Proof.
  intros e s s' o L H. unfold h_alloc_odt in H. guards H. right. apply allocated_out; auto. intros. eapply alloc_odt_codes; eauto.
Qed.
Lemma alloc_ent_out : forall e s s' o, lenN (s_out s) = c_max_cto c -> h_alloc_odt_entry c e s = Ok (s', o) ->
  refusal s s' o \/ allocated (daq_alloc_entry c (gw c (s_in s) 2 mod we c) (gb (s_in s) 4) (gb (s_in s) 5)) s s' o.
Proof.
  intros e s s' o L H. unfold h_alloc_odt_entry in H. guards H. right. apply allocated_out; auto. intros. eapply alloc_entry_codes; eauto.
Qed.
Lemma write_out : forall e s s' o, lenN (s_out s) = c_max_cto c -> h_write_daq c e s = Ok (s', o) ->
  refusal s s' o \/ write_daq_entry c (gb (s_in s) 2) (gd c (s_in s) 4) (s_daq s) = Ok (s_daq s') /\ accepted o.
Proof.
  intros e s s' o L H. unfold h_write_daq in H. guards H. right. apply bind_Ok in H. destruct H as (d & H1 & H).
  destruct (pos_out c (set_s_daq d s) s' o W D L H) as (A & B). ss_in A. subst d. auto.
Qed.
Lemma multiple_out : forall e s s' o, lenN (s_out s) = c_max_cto c -> h_write_daq_multiple c e s = Ok (s', o) ->
  refusal s s' o \/ write_multiple c (s_in s) (N.to_nat (gb (s_in s) 1)) 0 (s_daq s) = Ok (s_daq s') /\ accepted o.
Proof.
  intros e s s' o L H. unfold h_write_daq_multiple in H. destruct (_ <? _).
  - left. destruct (result_out c 0x22 s s' o W D L ltac:(lia) H) as (A & [(B & _)|(_ & B)]); [lia|]. split; [auto|]. exists 0x22. split; [lia|]. split; [lia|auto].
  - guards H. right. destruct (_ <? _); [discriminate|]. apply bind_Ok in H. destruct H as (d & H1 & H).
    destruct (pos_out c (set_s_daq d s) s' o W D L H) as (A & B). ss_in A. subst d. auto.
Qed.
Lemma disconnect_out : forall e s s' o, lenN (s_out s) = c_max_cto c -> h_disconnect c e s = Ok (s', o) ->
  refusal s s' o \/ accepted o /\ (c_daq c = true -> daq_init c (s_daq s) = Ok (s_daq s')).
Proof.
  intros e s s' o L H. unfold h_disconnect in H. guards H. right. apply andthen_Ok in H. destruct H as (s1 & o1 & o2 & H1 & H2 & ->).
  destruct (pos_out c s s1 o1 W D L H1) as (A & B). apply bind_Ok in H2. destruct H2 as (s2 & H2 & H3). injection H3 as <- <-.
  rewrite app_nil_r. split; [auto|]. intro Q. apply disconnect_fields in H2. destruct H2 as (d & -> & Hd). rewrite Q in Hd. ss. now rewrite <- A.
Qed.
Lemma unlock_out : forall e s s' o, lenN (s_out s) = c_max_cto c -> h_unlock c e s = Ok (s', o) -> accepted o -> s_daq s' = s_daq s.
Proof.
  intros e s s' o L H A. unfold h_unlock in H. apply pgm_guard in H; [|auto]. destruct H as [H|(H & _)]; [|auto].
  destruct (s_seed s =? 0).
  - destruct (err_frame c 0x29 s W D L ltac:(lia)) as (ob & o1 & _ & E & P). rewrite E in H. injection H as <- <-. reflexivity.
  - apply bind_Ok in H. destruct H as ((s1 & o1) & H1 & H). injection H as <- <-. ss. destruct (e_unlock _ _ _ _).
    + cbn [send8] in H1. apply send8_Ok in H1. decompose [ex and] H1. subst. reflexivity.
    + apply andthen_Ok in H1. destruct H1 as (s2 & o2 & o3 & H1 & H2 & ->). apply bind_Ok in H2. destruct H2 as (s3 & H2 & H3). injection H3 as <- <-.
      destruct (result_out c 0x25 s s2 o2 W D L ltac:(lia) H1) as (_ & [(B & _)|(_ & B)]); [lia|]. rewrite app_nil_r in A. exfalso. eapply not_both; eauto.
Qed.
End Out.

(** ** Everything else leaves the tables alone *)
Lemma ss_tables : forall b d, same_tables d (start_stop b d).
Proof. intros. apply start_stop_same. Qed.
Lemma st_refl : forall d, same_tables d d. Proof. intro. repeat split. Qed.
Lemma st_trans : forall a b d, same_tables a b -> same_tables b d -> same_tables a d.
Proof. unfold same_tables. intros a b d (? & ? & ? & ? & ?) (? & ? & ? & ? & ?). repeat split; congruence. Qed.
Lemma add_event_tables : forall l ev d d', add_event l ev d = Ok d' -> same_tables d d'.
Proof. unfold add_event. intros. invs. repeat split. Qed.
Definition table_cmds : list N := [0xFE; 0xF7; 0xD6; 0xD5; 0xD4; 0xD3; 0xE1; 0xC7].
Lemma table_entries : forall c e, entries c (fun k h => forall s s' o, h e s = Ok (s', o) ->
  same_tables (s_daq s) (s_daq s') \/ In k table_cmds).
Proof.
  intros c e. apply table_each; intros; try (right; cbn; now auto 10); left; crush_o; split_st; ss.
  all: try (repeat split; fail); try (splitif; repeat split; fail).
  all: first [ eapply st_trans; [eapply add_event_tables; eassumption|repeat split] | apply ss_tables
             | eapply st_trans; [apply ss_tables|repeat split] | idtac ].
Qed.

Lemma mod_we_small : forall c x, x < 65536 -> fits c x -> x mod we c = x.
Proof.
  intros c x Hx F. unfold fits in F. destruct (we_cases c) as [(A & ->)|[(A & ->)|(A & ->)]]; [apply N.mod_small; auto| |];
  apply N.mod_small; change (2 ^ 16) with 65536; change (2 ^ 32) with 4294967296; lia.
Qed.
Lemma list_fits : forall c (t : tree) l x d fo fe, dinv c d -> represents_by fo fe c d t -> getN t l = Some x -> fits c l.
Proof.
  intros c t l x d fo fe I R H F. pose proof (getN_Some_lt _ _ _ _ H). pose proof (r_count _ _ _ _ _ R). pose proof (d_layout _ _ I) as (L1 & L2 & _).
  rewrite (d_len _ _ I) in L2. lia.
Qed.


(** ** One step of a history *)
Section Hist.
Variables (c : cfg) (W : wf_cfg c) (D : dlc_ok c) (Small : c_max_ent c < 65536).

Lemma rep_tables : forall fo fe d d' t, same_tables d d' -> represents_by fo fe c d t -> represents_by fo fe c d' t.
Proof.
  intros fo fe d d' t (A & B & C & E & F) [r1 r2 r3 r4 r5 r6 r7 r8 r9 r10 r11].
  constructor; unfold header, holds, body_at in *; rewrite ?B, ?C, ?E, ?F; auto.
Qed.
Lemma rep_init : forall d d', daq_init c d = Ok d' -> represents_by (fun _ => 0) (fun _ _ => 0) c d' [].
Proof.
  intros d d' H. unfold daq_init in H. apply bind_Ok in H. destruct H as (q & _ & H). injection H as <-.
  apply (rep_tables _ _ (daq_free c d)); [repeat split|apply rep_free].
Qed.

Lemma busy_out : forall s s' o, lenN (s_out s) = c_max_cto c -> busy_response c s = Ok (s', o) -> s_daq s' = s_daq s /\ rejected o 0x10.
Proof.
  intros s s' o L H. unfold busy_response in H.
  assert (L1 : lenN (s_out (if c_stats c then set_s_crosb (u32 (s_crosb s + 1)) s else s)) = c_max_cto c) by (destruct (c_stats c); exact L).
  assert (E1 : s_daq (if c_stats c then set_s_crosb (u32 (s_crosb s + 1)) s else s) = s_daq s) by (destruct (c_stats c); reflexivity).
  destruct (result_out c 0x10 _ s' o W D L1 ltac:(lia) H) as (A & [(B & _)|(_ & B)]); [lia|]. rewrite A. auto.
Qed.

Lemma recv_cases : forall e k t s s' o, sinv c s -> step c e (ORecv (k :: t)) s = Ok (s', o) ->
  (s_daq s' = s_daq s /\ ~ accepted o /\ ~ rejected o 0x29) \/
  (exists h, entry c k = Some h /\ h e (rx c (k :: t) s) = Ok (s', o)).
Proof.
  intros e k t s s' o I H. cbn [step] in H. apply receive_Ok in H.
  destruct H as [(H & _)|(k' & t' & E & Hl & H)]; [discriminate|]. injection E as <- <-. pose proof (b_out _ _ (i_b _ _ I)) as Lo.
  destruct H as [(_ & _ & H)|[(_ & h & Hh & H)|(_ & Nk & -> & ->)]].
  - left. apply busy_out in H; [|exact Lo]. destruct H as (A & B). split; [exact A|]. split; intro X; [eapply not_both; eauto|].
    pose proof (rejected_one _ _ _ B X). lia.
  - right. exists h. split; [exact Hh|exact H].
  - left. split; [reflexivity|]. split; intros (p & X & _); discriminate.
Qed.

Lemma unknown_out : forall e s s' o, lenN (s_out s) = c_max_cto c -> h_unknown c e s = Ok (s', o) -> refusal s s' o.
Proof.
  intros e s s' o L H. destruct (result_out c 0x20 s s' o W D L ltac:(lia) H) as (A & [(B & _)|(_ & B)]); [lia|].
  split; [auto|]. exists 0x20. split; [lia|]. split; [lia|auto].
Qed.
Lemma refusal_no : forall s s' o, refusal s s' o -> s_daq s' = s_daq s /\ ~ accepted o /\ ~ rejected o 0x29.
Proof.
  intros s s' o (A & k & N1 & N2 & B). split; [auto|]. split; intro X; [eapply not_both; eauto|]. pose proof (rejected_one _ _ _ B X). lia.
Qed.

(** Either nothing happened, or the handler of the command was executed. *)
Definition nothing (s s' : st) (o : list pkt) : Prop := s_daq s' = s_daq s /\ ~ accepted o /\ ~ rejected o 0x29.
Lemma handled : forall k g e t s s' o (b : bool), sinv c s ->
  entry c k = Some (if b then g else h_unknown c) ->
  step c e (ORecv (k :: t)) s = Ok (s', o) -> nothing s s' o \/ (b = true /\ g e (rx c (k :: t) s) = Ok (s', o)).
Proof.
  intros k g e t s s' o b I E H. destruct (recv_cases _ _ _ _ _ _ I H) as [H1|(h & Hh & H1)]; [left; exact H1|].
  rewrite E in Hh. injection Hh as <-. destruct b; [right; auto|]. left.
  apply refusal_no with (s := rx c (k :: t) s). apply unknown_out with e; auto. apply (b_out _ _ (i_b _ _ I)).
Qed.

Lemma gb_rx : forall f s i x, nth_error f i = Some x -> gb (rxbuf s f) (N.of_nat i) = x.
Proof.
  intros f s i x H. unfold gb, rxbuf. rewrite Nnat.Nat2N.id. rewrite app_nth1 by (apply nth_error_Some; congruence). now apply nth_error_nth.
Qed.
(** The handlers of the table commands. *)
Lemma cmd_FE : forall e t s s' o, sinv c s -> step c e (ORecv (0xFE :: t)) s = Ok (s', o) ->
  nothing s s' o \/ accepted o /\ (c_daq c = true -> daq_init c (s_daq s) = Ok (s_daq s')).
Proof.
  intros e t s s' o I H. destruct (handled 0xFE (h_disconnect c) e t s s' o true I eq_refl H) as [N|(B & X)]; [auto|].
  destruct (disconnect_out c W D e (rx c (0xFE :: t) s) s' o (b_out _ _ (i_b _ _ I)) X) as [Y|Y]; [left|right; exact Y].
  apply refusal_no in Y. exact Y.
Qed.
Lemma cmd_F7 : forall e t s s' o, sinv c s -> step c e (ORecv (0xF7 :: t)) s = Ok (s', o) -> accepted o -> s_daq s' = s_daq s.
Proof.
  intros e t s s' o I H A. destruct (handled 0xF7 (h_unlock c) e t s s' o (c_opt c 0xF7) I eq_refl H) as [(N & _)|(B & X)]; [auto|].
  exact (unlock_out c W D e (rx c (0xF7 :: t) s) s' o (b_out _ _ (i_b _ _ I)) X A).
Qed.
Lemma cmd_D6 : forall e t s s' o, sinv c s -> step c e (ORecv (0xD6 :: t)) s = Ok (s', o) ->
  nothing s s' o \/ s_daq s' = daq_free c (s_daq s) /\ accepted o.
Proof.
  intros e t s s' o I H. destruct (handled 0xD6 (h_free_daq c) e t s s' o (c_daq c && c_opt c 0xD6) I eq_refl H) as [N|(B & X)]; [auto|].
  destruct (free_out c W D e (rx c (0xD6 :: t) s) s' o (b_out _ _ (i_b _ _ I)) X) as [Y|Y]; [left|right; exact Y].
  apply refusal_no in Y. exact Y.
Qed.
Lemma cmd_D5 : forall e t s s' o, sinv c s -> step c e (ORecv (0xD5 :: t)) s = Ok (s', o) ->
  nothing s s' o \/ c_daq c = true /\ allocated c (daq_alloc c (gw c (rxbuf s (0xD5 :: t)) 2 mod we c)) s s' o.
Proof.
  intros e t s s' o I H. destruct (handled 0xD5 (h_alloc_daq c) e t s s' o (c_daq c && c_opt c 0xD5) I eq_refl H) as [N|(B & X)]; [auto|].
  destruct (alloc_daq_out c W D e (rx c (0xD5 :: t) s) s' o (b_out _ _ (i_b _ _ I)) X) as [Y|Y]; [left; apply refusal_no in Y; exact Y|right].
  rewrite rx_in in Y. split; [apply andb_true_iff in B; apply B|exact Y].
Qed.
Lemma cmd_D4 : forall e t s s' o, sinv c s -> step c e (ORecv (0xD4 :: t)) s = Ok (s', o) ->
  let b := rxbuf s (0xD4 :: t) in nothing s s' o \/ c_daq c = true /\ allocated c (daq_alloc_odt c (gw c b 2 mod we c) (gb b 4)) s s' o.
Proof.
  intros e t s s' o I H. destruct (handled 0xD4 (h_alloc_odt c) e t s s' o (c_daq c && c_opt c 0xD4) I eq_refl H) as [N|(B & X)]; [now left|].
  destruct (alloc_odt_out c W D e (rx c (0xD4 :: t) s) s' o (b_out _ _ (i_b _ _ I)) X) as [Y|Y]; [left; apply refusal_no in Y; exact Y|right].
  rewrite rx_in in Y. split; [apply andb_true_iff in B; apply B|exact Y].
Qed.
Lemma cmd_D3 : forall e t s s' o, sinv c s -> step c e (ORecv (0xD3 :: t)) s = Ok (s', o) ->
  let b := rxbuf s (0xD3 :: t) in nothing s s' o \/ c_daq c = true /\ allocated c (daq_alloc_entry c (gw c b 2 mod we c) (gb b 4) (gb b 5)) s s' o.
Proof.
  intros e t s s' o I H. destruct (handled 0xD3 (h_alloc_odt_entry c) e t s s' o (c_daq c && c_opt c 0xD3) I eq_refl H) as [N|(B & X)]; [now left|].
  destruct (alloc_ent_out c W D e (rx c (0xD3 :: t) s) s' o (b_out _ _ (i_b _ _ I)) X) as [Y|Y]; [left; apply refusal_no in Y; exact Y|right].
  rewrite rx_in in Y. split; [apply andb_true_iff in B; apply B|exact Y].
Qed.
Lemma cmd_E1 : forall e t s s' o, sinv c s -> step c e (ORecv (0xE1 :: t)) s = Ok (s', o) ->
  let b := rxbuf s (0xE1 :: t) in nothing s s' o \/ write_daq_entry c (gb b 2) (gd c b 4) (s_daq s) = Ok (s_daq s') /\ accepted o.
Proof.
  intros e t s s' o I H. destruct (handled 0xE1 (h_write_daq c) e t s s' o (c_daq c) I eq_refl H) as [N|(B & X)]; [now left|].
  destruct (write_out c W D e (rx c (0xE1 :: t) s) s' o (b_out _ _ (i_b _ _ I)) X) as [Y|Y]; [left; apply refusal_no in Y; exact Y|right].
  rewrite rx_in in Y. exact Y.
Qed.
Lemma cmd_C7 : forall e t s s' o, sinv c s -> step c e (ORecv (0xC7 :: t)) s = Ok (s', o) ->
  let b := rxbuf s (0xC7 :: t) in nothing s s' o \/ write_multiple c b (N.to_nat (gb b 1)) 0 (s_daq s) = Ok (s_daq s') /\ accepted o.
Proof.
  intros e t s s' o I H. destruct (handled 0xC7 (h_write_daq_multiple c) e t s s' o (c_daq c && c_opt c 0xC7) I eq_refl H) as [N|(B & X)]; [now left|].
  destruct (multiple_out c W D e (rx c (0xC7 :: t) s) s' o (b_out _ _ (i_b _ _ I)) X) as [Y|Y]; [left; apply refusal_no in Y; exact Y|right].
  rewrite rx_in in Y. exact Y.
Qed.

(** Writing several entries. *)
Lemma put_entry_at : forall t l o k x y, entry_at t l o k = Some y -> forall k',
  entry_at (put_entry t l o k x) l o k' = if k =? k' then Some x else entry_at t l o k'.
Proof.
  intros t l o k x y H k'. destruct (entry_odt _ _ _ _ _ H) as (es & H1 & H2). destruct (odt_list _ _ _ _ H1) as (os & H3 & H4).
  pose proof (getN_Some_lt _ _ _ _ H2). pose proof (getN_Some_lt _ _ _ _ H3). pose proof (getN_Some_lt _ _ _ _ H4).
  unfold put_entry. rewrite H1. unfold put_entries. rewrite H3. rewrite !put_upd by auto. rewrite entry_upd by auto.
  rewrite N.eqb_refl, getN_upd_same by auto. unfold entry_at. rewrite H1. destruct (N.eqb_spec k k') as [->|N]; [now rewrite getN_upd_same|now rewrite getN_upd_other].
Qed.
Lemma write_ptr : forall sz a d d', write_daq_entry c sz a d = Ok d' ->
  d_plist d' = d_plist d /\ d_podt d' = d_podt d /\ d_pent d' = (d_pent d + 1) mod we c.
Proof. unfold write_daq_entry. intros. invs. repeat split. Qed.
Lemma elements_S : forall n b xs, elements c (S n) b = Some xs -> exists u sz a0 a1 a2 a3 v w t ys,
  b = u :: sz :: a0 :: a1 :: a2 :: a3 :: v :: w :: t /\ elements c n t = Some ys /\ xs = (field c [a0; a1; a2; a3], sz) :: ys.
Proof.
  intros n b xs H. cbn [elements] in H. do 8 (destruct b as [|? b]; [discriminate|]).
  destruct (elements c n b) as [ys|] eqn:E; [|discriminate]. cbn [option_map] in H. injection H as <-. repeat eexists. exact E.
Qed.
Lemma elements_app : forall n b xs r, elements c n b = Some xs -> elements c n (b ++ r) = Some xs.
Proof.
  induction n as [|n IH]; intros b xs r H; [exact H|]. apply elements_S in H.
  destruct H as (u & sz & a0 & a1 & a2 & a3 & v & w & tl & ys & -> & E & ->). cbn [elements app]. now rewrite (IH _ _ r E).
Qed.
Lemma skip_skip : forall A i j (l : list A), skipn i (skipn j l) = skipn (j + i) l.
Proof. intros A i j. revert i. induction j; intros i l; [reflexivity|]. destruct l; cbn; [now destruct i|auto]. Qed.
Lemma rep_multiple : forall n buf i d d' t fo fe xs b, dinv c d -> represents_by fo fe c d t ->
  (forall j, j < N.of_nat n -> exists x, entry_at t (d_plist d) (d_podt d) (d_pent d + j) = Some x) ->
  dropN (i * 8 + 2) buf = b -> elements c n b = Some xs -> write_multiple c buf n i d = Ok d' ->
  represents_by fo fe c d' (put_all t (d_plist d) (d_podt d) (d_pent d) xs).
Proof.
  induction n as [|n IH]; intros buf i d d' t fo fe xs b I R V Hb He H.
  - cbn in H. injection H as <-. cbn in He. injection He as <-. exact R.
  - apply elements_S in He. destruct He as (u & sz & a0 & a1 & a2 & a3 & v & w & tl & ys & Eb & Ey & ->).
    cbn [write_multiple] in H. apply bind_Ok in H. destruct H as (d1 & H1 & H).
    destruct (V 0 ltac:(lia)) as (x0 & V0). rewrite N.add_0_r in V0.
    assert (G : forall j y, nth_error b j = Some y -> gb buf (i * 8 + 2 + N.of_nat j) = y).
    { intros j y Hj. rewrite <- Hb in Hj. unfold dropN in Hj. unfold gb. rewrite Nnat.N2Nat.inj_add, Nnat.Nat2N.id.
      apply nth_error_nth. rewrite nth_error_skipn in Hj. exact Hj. }
    assert (E1 : gb buf (i * 8 + 2 + 1) = sz) by (apply (G 1%nat); rewrite Eb; reflexivity).
    assert (E2 : gd c buf (i * 8 + 2 + 2) = field c [a0; a1; a2; a3]).
    { rewrite gd_eq. f_equal. repeat f_equal; [apply (G 2%nat)|replace (i * 8 + 2 + 2 + 1) with (i * 8 + 2 + 3) by lia; apply (G 3%nat)
        |replace (i * 8 + 2 + 2 + 2) with (i * 8 + 2 + 4) by lia; apply (G 4%nat)
        |replace (i * 8 + 2 + 2 + 3) with (i * 8 + 2 + 5) by lia; apply (G 5%nat)]; rewrite Eb; reflexivity. }
    rewrite E1, E2 in H1. pose proof (rep_write c W Small _ _ _ _ _ _ _ _ I R V0 H1) as R1. pose proof (dinv_write _ _ _ _ _ I H1) as I1.
    destruct (write_ptr _ _ _ _ H1) as (P1 & P2 & P3).
    destruct (entry_odt _ _ _ _ _ V0) as (es & O1 & O2). pose proof (getN_Some_lt _ _ _ _ O2) as Hk.
    pose proof (rep_entry_index c W Small _ _ _ _ _ _ _ _ I R V0) as (_ & Bi).
    assert (P4 : d_pent d1 = d_pent d + 1) by (rewrite P3; apply N.mod_small; pose proof (ent_lt_we c W); lia).
    cbn [put_all].
    assert (F : put_all (put_entry t (d_plist d) (d_podt d) (d_pent d) (field c [a0; a1; a2; a3], sz)) (d_plist d1) (d_podt d1) (d_pent d1) ys
              = put_all (put_entry t (d_plist d) (d_podt d) (d_pent d) (field c [a0; a1; a2; a3], sz)) (d_plist d) (d_podt d) (d_pent d + 1) ys) by now rewrite P1, P2, P4.
    enough (Q : represents_by fo fe c d' (put_all (put_entry t (d_plist d) (d_podt d) (d_pent d) (field c [a0; a1; a2; a3], sz)) (d_plist d1) (d_podt d1) (d_pent d1) ys))
      by (rewrite F in Q; exact Q).
    apply (IH buf (i + 1) d1 d' _ fo fe ys tl I1 R1); auto.
    + intros j Hj. rewrite P1, P2, P4. rewrite (put_entry_at _ _ _ _ _ _ V0). destruct (N.eqb_spec (d_pent d) (d_pent d + 1 + j)); [eauto|].
      replace (d_pent d + 1 + j) with (d_pent d + (1 + j)) by lia. apply V. lia.
    + replace ((i + 1) * 8 + 2) with ((i * 8 + 2) + 8) by lia. unfold dropN in *. rewrite Nnat.N2Nat.inj_add.
      rewrite <- skip_skip, Hb, Eb. reflexivity.
Qed.

Lemma bytes_field : forall a b, a < 256 -> b < 256 -> field c [a; b] < 65536.
Proof. intros. now apply field2. Qed.

Lemma req_step : forall e f s s' o t t1, wf_op c (e, ORecv f) -> sinv c s -> step c e (ORecv f) s = Ok (s', o) -> accepted o ->
  requests c s t f t1 -> represents c s t -> represents c s' t1.
Proof.
  intros e f s s' o t t1 (_ & Wf) I H A Q (fo & fe & R). cbn [snd] in Wf. pose proof (i_d _ _ I) as Id.
  destruct f as [|k f]; [contradiction|]. unfold requests in Q.
  assert (K : In k [0xD6; 0xD5; 0xD4; 0xD3; 0xE1; 0xC7]).
  { destruct k as [|p]; [contradiction|]. do 8 (destruct p as [p|p|]; try contradiction); cbn; auto 10. }
  assert (Nn : forall X : Prop, nothing s s' o \/ X -> X) by (intros X [(_ & N & _)|X0]; [contradiction|auto]).
  assert (Na : forall g, allocated c g s s' o -> g (s_daq s) = Ok (s_daq s', 0xFF)).
  { intros g [(X & _)|[(_ & [X|(_ & X)])|(_ & X & _)]]; auto; exfalso; eapply not_both; eauto. }
  cbn [In] in K. destruct K as [<-|[<-|[<-|[<-|[<-|[<-|[]]]]]]].
  - apply cmd_D6 in H; [|auto]. apply Nn in H. destruct H as (H & _). subst t1. unfold represents. rewrite H. do 2 eexists. apply rep_free.
  - destruct f as [|r [|a [|b f]]]; try contradiction. destruct Q as (F & ->).
    pose proof Wf as Wf'. inversion Wf' as [|? ? _ W1]; subst. inversion W1 as [|? ? _ W2]; subst. inversion W2 as [|? ? Ha W3]; subst. inversion W3 as [|? ? Hb _]; subst.
    apply cmd_D5 in H; [|auto]. apply Nn in H. destruct H as (_ & H). apply Na in H. rewrite gw_eq in H.
    rewrite (eq_refl : gb (rxbuf s (0xD5 :: r :: a :: b :: f)) 2 = a), (eq_refl : gb (rxbuf s (0xD5 :: r :: a :: b :: f)) (2 + 1) = b) in H.
    rewrite mod_we_small in H by (auto; now apply field2).
    unfold represents. do 2 eexists. eapply rep_alloc; eauto. now apply field2.
  - destruct f as [|r [|a [|b [|n f]]]]; try contradiction. destruct Q as (F & ->).
    pose proof Wf as Wf'. inversion Wf' as [|? ? _ W1]; subst. inversion W1 as [|? ? _ W2]; subst. inversion W2 as [|? ? Ha W3]; subst. inversion W3 as [|? ? Hb W4]; subst.
    inversion W4 as [|? ? Hn _]; subst.
    apply cmd_D4 in H; [|auto]. apply Nn in H. destruct H as (_ & H). apply Na in H. rewrite gw_eq in H.
    rewrite (eq_refl : gb (rxbuf s (0xD4 :: r :: a :: b :: n :: f)) 2 = a), (eq_refl : gb (rxbuf s (0xD4 :: r :: a :: b :: n :: f)) (2 + 1) = b), (eq_refl : gb (rxbuf s (0xD4 :: r :: a :: b :: n :: f)) 4 = n) in H.
    rewrite mod_we_small in H by (try eapply list_fits; eauto; now apply field2).
    unfold represents, put_odts. rewrite put_upd by (eapply getN_Some_lt; eauto). do 2 eexists. eapply rep_alloc_odt; eauto. lia.
  - destruct f as [|r [|a [|b [|oo [|n f]]]]]; try contradiction. destruct Q as (F & ->).
    pose proof Wf as Wf'. inversion Wf' as [|? ? _ W1]; subst. inversion W1 as [|? ? _ W2]; subst. inversion W2 as [|? ? Ha W3]; subst. inversion W3 as [|? ? Hb W4]; subst.
    inversion W4 as [|? ? Ho W5]; subst. inversion W5 as [|? ? Hn _]; subst.
    apply cmd_D3 in H; [|auto]. apply Nn in H. destruct H as (_ & H). apply Na in H. rewrite gw_eq in H.
    rewrite (eq_refl : gb (rxbuf s (0xD3 :: r :: a :: b :: oo :: n :: f)) 2 = a), (eq_refl : gb (rxbuf s (0xD3 :: r :: a :: b :: oo :: n :: f)) (2 + 1) = b), (eq_refl : gb (rxbuf s (0xD3 :: r :: a :: b :: oo :: n :: f)) 4 = oo), (eq_refl : gb (rxbuf s (0xD3 :: r :: a :: b :: oo :: n :: f)) 5 = n) in H.
    destruct (odt_list _ _ _ _ F) as (os & G & _).
    rewrite mod_we_small in H by (try eapply list_fits; eauto; now apply field2).
    unfold represents. do 2 eexists. eapply rep_alloc_entry; eauto. lia.
  - destruct f as [|r [|n [|x [|a0 [|a1 [|a2 [|a3 f]]]]]]]; try contradiction. destruct Q as ((y & F) & ->).
    apply cmd_E1 in H; [|auto]. apply Nn in H. destruct H as (H & _). rewrite gd_eq in H.
    rewrite (eq_refl : gb (rxbuf s (0xE1 :: r :: n :: x :: a0 :: a1 :: a2 :: a3 :: f)) 2 = n), (eq_refl : gb (rxbuf s (0xE1 :: r :: n :: x :: a0 :: a1 :: a2 :: a3 :: f)) 4 = a0), (eq_refl : gb (rxbuf s (0xE1 :: r :: n :: x :: a0 :: a1 :: a2 :: a3 :: f)) (4 + 1) = a1),
      (eq_refl : gb (rxbuf s (0xE1 :: r :: n :: x :: a0 :: a1 :: a2 :: a3 :: f)) (4 + 2) = a2), (eq_refl : gb (rxbuf s (0xE1 :: r :: n :: x :: a0 :: a1 :: a2 :: a3 :: f)) (4 + 3) = a3) in H.
    unfold represents. do 2 eexists. eapply rep_write; eauto.
  - destruct f as [|n b]; [contradiction|]. destruct Q as (xs & E & V & ->).
    apply cmd_C7 in H; [|auto]. apply Nn in H. destruct H as (H & _). rewrite (eq_refl : gb (rxbuf s (0xC7 :: n :: b)) 1 = n) in H.
    unfold represents. exists fo, fe.
    pose proof (elements_app _ _ _ (skipn (length (0xC7 :: n :: b)) (s_in s)) E) as X.
    eapply rep_multiple; [exact Id|exact R|rewrite Nnat.N2Nat.id; exact V| |exact X|exact H]. reflexivity.
Qed.

Lemma reset_step : forall e x s s' o, sinv c s -> step c e x s = Ok (s', o) -> resets c x o -> represents c s' [].
Proof.
  intros e x s s' o I H Q.
  assert (Z : forall d, daq_init c d = Ok (s_daq s') -> represents c s' []) by (intros d Hd; do 2 eexists; eapply rep_init; eauto).
  assert (O : (forall f, x <> ORecv f) -> resets c x o -> represents c s' []).
  { intros Nf Q'. destruct (other_ops _ _ _ _ _ _ H Nf) as (_ & _ & _ & [K|[(K1 & K2 & K3)|[(K1 & K2 & K3)|(K1 & K2 & K3)]]]).
    - destruct x; cbn in Q'; try contradiction; try (exfalso; eapply Nf; reflexivity); cbn [step] in H; apply bind_Ok in H; destruct H as (s1 & H & H1); injection H1 as <- <-.
      + apply disconnect_fields in H. destruct H as (d & -> & Hd). rewrite Q' in Hd. eapply Z. exact Hd.
      + apply init_fields in H. destruct H as (_ & _ & _ & _ & _ & _ & _ & _ & _ & _ & Hd). rewrite Q' in Hd. eauto.
    - eauto.
    - eauto.
    - subst x. cbn in Q'. congruence. }
  destruct x; try (apply O; [congruence|exact Q]).
  destruct frame as [|k f]; [contradiction|]. destruct Q as (Qd & [(-> & A)|(Qr & K & A)]).
  - apply cmd_FE in H; [|auto]. destruct H as [(_ & N & _)|(_ & H)]; [contradiction|]. eauto.
  - assert (X : forall g, nothing s s' o \/ c_daq c = true /\ allocated c g s s' o -> represents c s' []).
    { intros g [(_ & _ & N)|(_ & [(_ & Y)|[(_ & [Y|(Y & _)])|(_ & _ & Y)]])]; try contradiction; eauto.
      - exfalso. eapply not_both; eauto.
      - pose proof (rejected_one _ _ _ A Y). lia.
      - congruence. }
    cbn [In] in K. destruct K as [<-|[<-|[<-|[]]]].
    + apply cmd_D5 in H; eauto.
    + apply cmd_D4 in H; eauto.
    + apply cmd_D3 in H; eauto.
Qed.

Lemma leave_step : forall e x s s' o t, wf_op c (e, x) -> sinv c s -> step c e x s = Ok (s', o) -> leaves c x o ->
  represents c s t -> represents c s' t.
Proof.
  intros e x s s' o t (_ & Wx) I H Q (fo & fe & R). exists fo, fe. cbn [snd] in Wx.
  assert (Z : s_daq s' = s_daq s -> represents_by fo fe c (s_daq s') t) by (intros ->; exact R).
  assert (O : (forall f, x <> ORecv f) -> x <> ODisconnect -> x <> OInit -> represents_by fo fe c (s_daq s') t).
  { intros Nf N1 N2. destruct (other_ops _ _ _ _ _ _ H Nf) as (_ & _ & _ & [(q & K)|[(_ & K & _)|[(_ & K & _)|(_ & K & _)]]]); try contradiction.
    rewrite K. eapply rep_tables; [|exact R]. repeat split. }
  destruct x; try (apply O; congruence); try contradiction.
  destruct frame as [|k f].
  - cbn [step] in H. apply receive_Ok in H. destruct H as [(_ & -> & _)|(? & ? & ? & _)]; [exact R|discriminate].
  - destruct Q as (Q1 & Q2 & Q3). assert (Hk : k < 256) by (inversion Wx; auto).
    destruct (recv_cases _ _ _ _ _ _ I H) as [(K & _)|(h & Hh & K)]; [auto|].
    destruct (entries_cmd _ _ _ _ (table_entries c e) Hk Hh _ _ _ K) as [T|T]; [eapply rep_tables; [exact T|exact R]|].
    unfold table_cmds in T. cbn [In] in T. destruct T as [T|[T|T]].
    + congruence.
    + subst k. apply Z. eapply cmd_F7; eauto.
    + clear K. assert (Q : ~ accepted o /\ ~ resets c (ORecv (k :: f)) o) by (apply Q3; cbn; tauto). destruct Q as (Na & Nr).
      assert (X : forall g, In k [0xD5; 0xD4; 0xD3] -> nothing s s' o \/ c_daq c = true /\ allocated c g s s' o -> s_daq s' = s_daq s).
      { intros g Ik [(Y & _)|(Hd & [(_ & Y)|[(Y & _)|(Y1 & Y2 & Y3)]])]; auto; try contradiction.
        exfalso. apply Nr. cbn [resets]. auto 6. }
      apply Z. destruct T as [<-|[<-|[<-|[<-|[<-|[<-|[]]]]]]].
      * apply cmd_D6 in H; [|auto]. destruct H as [(Y & _)|(_ & Y)]; [auto|contradiction].
      * apply cmd_D5 in H; [|auto]. eapply X; eauto. cbn. auto.
      * apply cmd_D4 in H; [|auto]. eapply X; eauto. cbn. auto.
      * apply cmd_D3 in H; [|auto]. eapply X; eauto. cbn. auto.
      * apply cmd_E1 in H; [|auto]. destruct H as [(Y & _)|(_ & Y)]; [auto|contradiction].
      * apply cmd_C7 in H; [|auto]. destruct H as [(Y & _)|(_ & Y)]; [auto|contradiction].
Qed.
End Hist.
