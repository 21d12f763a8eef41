(** Proofs for C160: what masters are told about more than 255 events. *)
From Coq Require Import NArith ZArith List Bool Lia ZifyBool ZifyNat ZifyN.
From Verif Require Import Base Config Codec Checksum State Queue Daq Core Spec Lists Effects Handlers HTx HInv HInv2
  HFields HResp DaqInv HSpec Steps Demo ProofsSession Exec ProofsFrames SpecMem SpecDaq ProofsDaqB ProofsDaqD.
From Verif Require Import Checks SpecChecks ProofsChecks.
Import ListNotations.
Open Scope N_scope.
Ltac Zify.zify_post_hook ::= Z.div_mod_to_equations.

Section Events.
Variables (c : cfg) (en : env) (s : st).
Hypothesis C8 : 8 <= c_max_cto c.
Hypothesis D : dlc_ok c.
Hypothesis RD : ready s.
Hypothesis SZ : sized c s.

Lemma ev_exec : forall k t h, lenN (k :: t) <= c_ctobuf c -> entry c k = Some h ->
  step c en (ORecv (k :: t)) s = h en (rx c (k :: t) s).
Proof.
  intros k t h L H. destruct RD as (C & B), SZ as (Si & So). cbn [step]. unfold receive.
  destruct (N.eqb_spec (lenN (k :: t)) 0) as [E|_]; [rewrite lenN_cons in E; lia|].
  destruct (N.ltb_spec (c_ctobuf c) (lenN (k :: t))); [lia|].
  unfold dispatch. change (s_in (set_s_in ?x s)) with x. rewrite lenN_splice by lia. rewrite Si.
  destruct (N.ltb_spec (c_ctobuf c) 8) as [X|_]; [unfold c_ctobuf in X; lia|].
  unfold entry in H. cbn -[table N.sub]. rewrite C, B. now rewrite H.
Qed.

Lemma ev_send : forall len bs s0 s1, lenN (s_out s0) = c_max_cto c -> 1 <= len <= 8 ->
  lenN bs = 8 -> dropN len bs = repeat 0 (N.to_nat (8 - len)) -> same_session s1 s0 ->
  exists s' o, send8 c len bs s0 = Ok (s', o) /\ sends o (padded c (takeN len bs)) /\ same_session s1 s'.
Proof.
  intros len bs s0 s1 Lo Ll Lb Hz S.
  destruct (send8_val c len bs s0 Lo ltac:(lia) Lb D) as (ob & L & E).
  exists (bump c (set_s_out ob s0)). eexists. split; [exact E|]. split; [|eapply ss_trans; [exact S|apply ss_send]].
  eexists. split; [reflexivity|]. split; [reflexivity|].
  cbn [p_data]. unfold len8, padded. destruct (c_max_dlc c) eqn:Ed; [|reflexivity].
  rewrite (D Ed). rewrite (take_all _ 8 bs) by lia. rewrite <- (take_drop _ len bs) at 1. f_equal. rewrite Hz.
  f_equal. assert (X : length (takeN len bs) = N.to_nat len) by (pose proof (lenN_take _ len bs) as T; unfold lenN in T, Lb; lia). lia.
Qed.

Lemma ev_refused : forall r a b tl, let f := 0xD7 :: r :: a :: b :: tl in
  c_daq c = true -> c_opt c 0xD7 = true -> ~ locked c 4 s -> bytes f -> lenN f <= c_ctobuf c ->
  lenN (c_events c) mod 256 <= field c [a; b] -> refuses c en f s 0x22.
Proof.
  intros r a b tl f Hd O Lk B L G. unfold refuses, answers. unfold f at 1.
  rewrite (ev_exec 0xD7 (r :: a :: b :: tl) (h_daq_event_info c) L ltac:(tbl)). fold f. unfold h_daq_event_info.
  rewrite unlocked_no by exact Lk. rewrite rx_in.
  assert (E : gw c (rxbuf s f) 2 = field c [a; b]).
  { unfold gw. rewrite (gb_rx f s 2 a eq_refl : gb _ 2 = a), (gb_rx f s 3 b eq_refl : gb _ (2 + 1) = b). unfold field.
    destruct (c_motorola c); unfold be_value, le_value; cbn [rev app fold_right]; lia. }
  rewrite E. unfold u8, c_nevents. change (2 ^ 8) with 256.
  replace (lenN (c_events c) mod 256 <=? field c [a; b]) with true by (symmetry; now apply N.leb_le).
  unfold send_result, err. change (0x22 =? 0xFF) with false. cbv iota. change (u8 0x22) with 0x22.
  apply (ev_send 2 [0xFE; 0x22; 0; 0; 0; 0; 0; 0]); [apply SZ|lia|reflexivity|reflexivity|apply ss_rx].
Qed.

Lemma ev_announced : forall t, c_daq c = true -> c_opt c 0xDA = true -> ~ programming s -> ~ locked c 4 s -> lenN (0xDA :: t) <= c_ctobuf c ->
  lenN (c_events c) < 2 ^ 16 ->
  exists s' p, step c en (ORecv (0xDA :: t)) s = Ok (s', [p]) /\ at_ (p_data p) 4 2 = le_bytes 2 (lenN (c_events c)).
Proof.
  intros t Hd O P Lk L B.
  rewrite (ev_exec 0xDA t (h_daq_processor_info c) L ltac:(tbl)). unfold h_daq_processor_info.
  rewrite pgm_idle_no by exact P. rewrite unlocked_no by exact Lk.
  destruct (send8_val c 8 [0xFF; daq_properties c; lobyte (d_lcnt (s_daq (rx c (0xDA :: t) s))); hibyte (d_lcnt (s_daq (rx c (0xDA :: t) s)));
    lobyte (u16 (c_nevents c)); hibyte (u16 (c_nevents c)); 0; 0] (rx c (0xDA :: t) s) (proj2 SZ) ltac:(lia) eq_refl D) as (ob & _ & E).
  eexists. eexists. split; [exact E|]. cbn [p_data]. rewrite take_all.
  - unfold c_nevents, u16. rewrite N.mod_small by exact B. reflexivity.
  - unfold len8. destruct (c_max_dlc c) eqn:Ed; [rewrite (D Ed)|]; cbn; lia.
Qed.
End Events.

Lemma info_refused : forall e e' c en s r a b tl, let f := 0xD7 :: r :: a :: b :: tl in
  checks e = Some e' -> describes e' c -> 8 <= c_max_cto c -> dlc_ok c -> ready s -> sized c s ->
  c_daq c = true -> c_opt c 0xD7 = true -> ~ locked c 4 s -> bytes f -> lenN f <= c_ctobuf c ->
  (value_of e Events mod 256 <= Z.of_N (field c [a; b]))%Z -> refuses c en f s 0x22.
Proof.
  intros e e' c en s r a b tl f H De C8 D RD SZ Hd O Lk B L G. apply ev_refused; auto.
  destruct (checks_sound _ _ H) as (_ & K & _). pose proof (d_events _ _ De) as Q. change value_of with val in *.
  rewrite (K Events) in Q by ins. rewrite Q in G. clear - G. change 256%Z with (Z.of_N 256) in G. rewrite <- N2Z.inj_mod in G by discriminate. lia.
Qed.
Lemma info_announced : forall e e' c en s t,
  checks e = Some e' -> describes e' c -> 8 <= c_max_cto c -> dlc_ok c -> ready s -> sized c s ->
  c_daq c = true -> c_opt c 0xDA = true -> ~ programming s -> ~ locked c 4 s -> lenN (0xDA :: t) <= c_ctobuf c ->
  (value_of e Events < 65536)%Z ->
  exists s' p, step c en (ORecv (0xDA :: t)) s = Ok (s', [p]) /\ at_ (p_data p) 4 2 = le_bytes 2 (Z.to_N (value_of e Events)).
Proof.
  intros e e' c en s t H De C8 D RD SZ Hd O P Lk L G.
  destruct (checks_sound _ _ H) as (_ & K & _). pose proof (d_events _ _ De) as Q. change value_of with val in *.
  rewrite (K Events) in Q by ins. rewrite Q in *. rewrite N2Z.id. apply ev_announced; auto. clear - G. change (2 ^ 16) with 65536. lia.
Qed.
