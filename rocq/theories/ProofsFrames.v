(** Proofs of the frame properties. *)
From Coq Require Import NArith ZArith List Bool Lia ZifyBool ZifyNat ZifyN.
From Verif Require Import Base Config Codec Checksum State Queue Daq Core Spec SpecFrames Lists Effects Handlers HTx HInv
  HInv2 HFields HResp DaqInv HSpec Steps Demo ProofsSession Exec.
Import ListNotations.
Open Scope N_scope.
Ltac Zify.zify_post_hook ::= Z.div_mod_to_equations.

(** ** Headers *)

Lemma le_field_bytes : forall size v, size <= 2 -> le_field size v = le_bytes (N.to_nat size) v.
Proof.
  intros size v H. unfold le_field.
  destruct (N.eqb_spec size 1) as [->|]; [reflexivity|].
  destruct (N.eqb_spec size 2) as [->|]; [reflexivity|].
  assert (size = 0) as -> by lia. reflexivity.
Qed.
Lemma mk_hdr_bytes : forall c len n, wf_cfg c ->
  mk_hdr c len n = le_bytes (N.to_nat (c_len_size c)) len ++ le_bytes (N.to_nat (c_ctr_size c)) n.
Proof. intros. unfold mk_hdr. rewrite !le_field_bytes; [reflexivity|apply H..]. Qed.
Lemma bytes_le : forall k v, bytes (le_bytes k v).
Proof. induction k; intro v; cbn [le_bytes]; constructor; [lia|apply IHk]. Qed.
Lemma bytes_app : forall a b, bytes a -> bytes b -> bytes (a ++ b).
Proof. intros. apply Forall_app. auto. Qed.

(** What the invariant says about a list of frames. *)
Definition sent (c : cfg) (n : N) (o : list pkt) : Prop :=
  forall i p, nth_error o i = Some p -> frame_ok c (n + N.of_nat i) p /\ lenN (p_data p) <= 255.

Lemma tx_sent : forall c s o s', wf_cfg c -> tx c s o s' -> sent c (s_ctr s) o.
Proof.
  intros c s o s' W (_ & _ & _ & T) i p H. apply T in H. destruct H as (H1 & H2 & H3).
  pose proof (wf_cto c W). unfold frame_ok, wire. rewrite H2, (mk_hdr_bytes c _ _ W). split; [split; [|split]|].
  - destruct (p_dto p); lia.
  - reflexivity.
  - apply bytes_app; auto. apply bytes_app; apply bytes_le.
  - destruct (p_dto p); lia.
Qed.

(** ** C07 *)

Lemma run_frames : forall c l s s' o, wf_cfg c -> wf_run c l -> sinv c s -> run c l s = Ok (s', o) ->
  forall p, In p o -> (exists n, frame_ok c n p) /\ lenN (p_data p) <= 255.
Proof.
  induction l as [|(e & op) l IH]; intros s s' o W R I H p Hp.
  - cbn in H. inv. destruct Hp.
  - apply run_cons in H. destruct H as (s1 & o1 & o2 & H1 & H2 & ->). inversion R; subst.
    pose proof (step_inv _ _ _ _ _ _ W H3 I H1) as (I1 & T1). apply in_app_or in Hp. destruct Hp as [Hp|Hp].
    + destruct (In_nth_error _ _ Hp) as (i & Hi).
      assert (D : op = OInit \/ op <> OInit) by (destruct op; first [left; reflexivity | right; discriminate]).
      destruct D as [->|D].
      * cbn [step] in H1. inv. destruct Hp.
      * destruct (tx_sent _ _ _ _ W (T1 D) _ _ Hi) as (X & Y). split; eauto.
    + eapply IH; eauto.
Qed.

Lemma frames_thm : forall c m l s o p, reachable c m l s o -> In p o -> (exists n, frame_ok c n p) /\ lenN (p_data p) <= 255.
Proof.
  intros c m l s o p (W & M & R & s0 & B & H) Hp. eapply run_frames; eauto. eapply boot_inv; eauto.
Qed.

(** ** C08 *)

Lemma counters_thm : forall c m l s o l' s' o', reachable c m l s o -> wf_run c l' -> no_init l' ->
  run c l' s = Ok (s', o') ->
  frames_from c (s_ctr s) o' /\
  s_ctr s' = (if c_ctr_size c =? 0 then s_ctr s else (s_ctr s + lenN o') mod 2 ^ 16) /\
  (c_stats c = true -> s_cros s' = (s_cros s + lenN o') mod 2 ^ 32).
Proof.
  intros c m l s o l' s' o' R W' N H. pose proof (reach_inv _ _ _ _ _ R) as I. destruct R as (W & _).
  destruct (run_tx _ _ _ _ _ W W' I N H) as (I' & T). split; [|split].
  - intros i p Hp. apply (tx_sent _ _ _ _ W T i p Hp).
  - destruct T as (T1 & T2 & _). destruct (N.eqb_spec (c_ctr_size c) 0); [auto|].
    specialize (T1 n). pose proof (b_ctr _ _ (i_b _ _ I')). rewrite N.mod_small in T1; auto.
  - destruct T as (_ & _ & T3 & _). intro Z. specialize (T3 Z). pose proof (b_cros _ _ (i_b _ _ I')).
    rewrite N.mod_small in T3; auto.
Qed.
Lemma boot_ctr : forall c m s, boot c m = Ok s -> s_ctr s = 0 /\ s_cros s = 0.
Proof.
  intros c m s H. unfold boot, xcp_init in H. invs. leaf; subst; ss; destruct (job_on c); split; reflexivity.
Qed.
Lemma first_counters_thm : forall c m l s o, reachable c m l s o -> no_init l -> frames_from c 0 o.
Proof.
  intros c m l s o (W & M & R & s0 & B & H) N.
  assert (R0 : reachable c m [] s0 []).
  { split; [exact W|]. split; [exact M|]. split; [constructor|]. exists s0. split; [exact B|reflexivity]. }
  destruct (counters_thm c m [] s0 [] l s o R0 R N H) as (F & _). destruct (boot_ctr _ _ _ B) as (Z & _).
  now rewrite Z in F.
Qed.

(** ** C09 *)

Lemma le_bytes_len : forall k v, length (le_bytes k v) = k.
Proof. induction k; intro v; cbn [le_bytes length]; auto. Qed.
Lemma le_value_bytes : forall k v, le_value (le_bytes k v) = v mod 256 ^ N.of_nat k.
Proof.
  induction k; intro v; [cbn; lia|]. cbn [le_bytes le_value]. rewrite IHk.
  replace (N.of_nat (S k)) with (N.succ (N.of_nat k)) by lia. rewrite N.pow_succ_r'.
  rewrite N.mod_mul_r; [reflexivity|lia|apply N.pow_nonzero; lia].
Qed.
Lemma take_le_app : forall k v t, take_le k (le_bytes k v ++ t) = Some (v mod 256 ^ N.of_nat k, t).
Proof.
  intros. unfold take_le. rewrite app_length, le_bytes_len. destruct (Nat.leb_spec k (k + length t)); [|lia].
  rewrite <- (le_bytes_len k v) at 1 3. rewrite firstn_app, skipn_app, Nat.sub_diag, firstn_all, skipn_all, app_nil_r.
  cbn [firstn skipn app]. now rewrite le_value_bytes.
Qed.

Lemma decode_ne : forall c k bs, bs <> [] -> decode c (S k) bs =
  match take_le (N.to_nat (c_len_size c)) bs with
  | None => None
  | Some (len, t) =>
      match take_le (N.to_nat (c_ctr_size c)) t with
      | None => None
      | Some (ctr, t) =>
          if Nat.leb (N.to_nat len) (length t) then
            match decode c k (skipn (N.to_nat len) t) with
            | Some r => Some ((ctr, firstn (N.to_nat len) t) :: r)
            | None => None
            end
          else None
      end
  end.
Proof. intros c k bs H. destruct bs; [congruence|reflexivity]. Qed.

Lemma decode_sent : forall c o n fuel, wf_cfg c -> c_len_size c <> 0 -> sent c n o -> (length o <= fuel)%nat ->
  decode c fuel (concat (map wire o)) = Some (numbered c n o).
Proof.
  induction o as [|p o IH]; intros n fuel W L S F; [destruct fuel; reflexivity|].
  destruct fuel as [|fuel]; [cbn in F; lia|].
  destruct (S 0%nat p eq_refl) as ((B1 & B2 & B3) & B4). cbn [map concat]. unfold wire at 1. rewrite B2.
  rewrite N.add_0_r. rewrite <- !app_assoc. set (rest := concat (map wire o)).
  pose proof (wf_len c W). pose proof (wf_ctr c W).
  rewrite decode_ne by (intro Z; apply (f_equal (@length N)) in Z; rewrite app_length, le_bytes_len in Z; cbn [length] in Z; lia).
  rewrite !take_le_app. rewrite N2Nat.id.
  assert (Hl : lenN (p_data p) mod 256 ^ c_len_size c = lenN (p_data p)).
  { apply N.mod_small. apply N.lt_le_trans with (256 ^ 1); [lia|]. apply N.pow_le_mono_r; lia. }
  rewrite Hl. unfold lenN at 1 2 3. rewrite Nat2N.id. rewrite app_length.
  destruct (Nat.leb_spec (length (p_data p)) (length (p_data p) + length rest)); [|lia].
  rewrite skipn_app, firstn_app, Nat.sub_diag, firstn_all, skipn_all. cbn [firstn skipn app]. rewrite app_nil_r.
  unfold rest. rewrite (IH (n + 1)); [cbn [numbered]; rewrite N2Nat.id; reflexivity|auto|auto| |cbn in F; lia].
  intros i q Hi. specialize (S (Datatypes.S i) q Hi).
  replace (n + 1 + N.of_nat i) with (n + N.of_nat (Datatypes.S i)) by lia. exact S.
Qed.

Lemma stream_thm : forall c m l s o l' s' o', reachable c m l s o -> wf_run c l' -> no_init l' ->
  run c l' s = Ok (s', o') -> c_len_size c <> 0 ->
  decode c (length o') (concat (map wire o')) = Some (numbered c (s_ctr s) o').
Proof.
  intros c m l s o l' s' o' R W' N H L. pose proof (reach_inv _ _ _ _ _ R) as I. destruct R as (W & _).
  destruct (run_tx _ _ _ _ _ W W' I N H) as (I' & T). apply decode_sent; auto. eapply tx_sent; eauto.
Qed.

(** ** C10 *)

Lemma gb_upd_same : forall b i v, i < lenN b -> gb (updN b i v) i = v.
Proof.
  intros b i v H. unfold gb. assert (G : getN (updN b i v) i = Some v) by now apply getN_upd_same.
  unfold getN in G. apply nth_error_nth. exact G.
Qed.
Lemma gb_upd_other : forall b i j v, i <> j -> gb (updN b i v) j = gb b j.
Proof.
  intros b i j v H. unfold gb. assert (G : getN (updN b i v) j = getN b j) by now apply getN_upd_other.
  unfold getN in G. destruct (nth_error b (N.to_nat j)) eqn:E.
  - rewrite (nth_error_nth _ _ 0 G). symmetry. apply nth_error_nth; auto.
  - apply nth_error_None in E. apply nth_error_None in G. now rewrite !nth_overflow.
Qed.

Lemma gw_eq : forall c b i, gw c b i = field c [gb b i; gb b (i + 1)].
Proof. intros. unfold gw, field, be_value. cbn [rev app le_value]. destruct (c_motorola c); lia. Qed.
Lemma gd_eq : forall c b i, gd c b i = field c [gb b i; gb b (i + 1); gb b (i + 2); gb b (i + 3)].
Proof.
  intros. unfold gd, gw, field, be_value. cbn [rev app le_value]. replace (i + 2 + 1) with (i + 3) by lia.
  destruct (c_motorola c); lia.
Qed.

Lemma u8_small : forall v, v < 256 -> u8 v = v.
Proof. intros. unfold u8. change (2 ^ 8) with 256. lia. Qed.
Lemma lenN_sb : forall b i v, lenN (sb b i v) = lenN b.
Proof. intros. unfold sb. apply lenN_upd. Qed.
Lemma lenN_sw : forall c b i v, lenN (sw c b i v) = lenN b.
Proof. intros. unfold sw. destruct (c_motorola c); now rewrite !lenN_sb. Qed.

Lemma gb_sb_same : forall b i v, i < lenN b -> v < 256 -> gb (sb b i v) i = v.
Proof. intros. unfold sb. rewrite gb_upd_same by auto. now apply u8_small. Qed.
Lemma gb_sb_other : forall b i j v, i <> j -> gb (sb b i v) j = gb b j.
Proof. intros. unfold sb. now apply gb_upd_other. Qed.

Lemma gb_sw : forall c b i v j, i + 2 <= lenN b ->
  gb (sw c b i v) j = if j =? i then (if c_motorola c then hibyte v else lobyte v)
                      else if j =? i + 1 then (if c_motorola c then lobyte v else hibyte v) else gb b j.
Proof.
  intros c b i v j H. unfold sw. pose proof (lobyte_lt v). pose proof (hibyte_lt v).
  destruct (N.eqb_spec j i) as [->|]; [|destruct (N.eqb_spec j (i + 1)) as [->|]].
  - destruct (c_motorola c); rewrite gb_sb_other by lia; rewrite gb_sb_same; auto; lia.
  - destruct (c_motorola c); rewrite gb_sb_same; auto; rewrite lenN_sb; lia.
  - destruct (c_motorola c); rewrite !gb_sb_other; auto.
Qed.

Lemma word_thm : forall c b i v, i + 2 <= lenN b -> v < 2 ^ 16 ->
  gw c (sw c b i v) i = v /\ lenN (sw c b i v) = lenN b /\
  (forall j, j < i \/ i + 2 <= j -> gb (sw c b i v) j = gb b j).
Proof.
  intros c b i v H V. change (2 ^ 16) with 65536 in V. split; [|split].
  - unfold gw. rewrite !gb_sw by auto. rewrite N.eqb_refl.
    destruct (N.eqb_spec (i + 1) i); [lia|]. rewrite N.eqb_refl. unfold hibyte, lobyte. destruct (c_motorola c); lia.
  - apply lenN_sw.
  - intros j Hj. rewrite gb_sw by auto. destruct (N.eqb_spec j i); [lia|]. destruct (N.eqb_spec j (i + 1)); [lia|]. reflexivity.
Qed.

Lemma dword_thm : forall c b i v, i + 4 <= lenN b -> v < 2 ^ 32 ->
  gd c (sd c b i v) i = v /\ lenN (sd c b i v) = lenN b /\
  (forall j, j < i \/ i + 4 <= j -> gb (sd c b i v) j = gb b j).
Proof.
  intros c b i v H V. change (2 ^ 32) with 4294967296 in V.
  assert (Hh : hiword v < 2 ^ 16) by (unfold hiword; change (2 ^ 16) with 65536; lia).
  assert (Hl : loword v < 2 ^ 16) by (unfold loword; change (2 ^ 16) with 65536; lia).
  assert (Hv : v = hiword v * 65536 + loword v) by (unfold hiword, loword; lia).
  unfold gd, sd. destruct (c_motorola c) eqn:E.
  - destruct (word_thm c b i (hiword v) ltac:(lia) Hh) as (A1 & A2 & A3).
    destruct (word_thm c (sw c b i (hiword v)) (i + 2) (loword v) ltac:(lia) Hl) as (B1 & B2 & B3).
    split; [|split].
    + rewrite B1. unfold gw in *. rewrite E in *. rewrite !B3 by lia. rewrite A1. lia.
    + congruence.
    + intros j Hj. rewrite B3, A3 by lia. reflexivity.
  - destruct (word_thm c b (i + 2) (hiword v) ltac:(lia) Hh) as (A1 & A2 & A3).
    destruct (word_thm c (sw c b (i + 2) (hiword v)) i (loword v) ltac:(lia) Hl) as (B1 & B2 & B3).
    split; [|split].
    + rewrite B1. unfold gw in *. rewrite E in *. rewrite !B3 by lia. rewrite A1. lia.
    + congruence.
    + intros j Hj. rewrite B3, A3 by lia. reflexivity.
Qed.

(** ** C11 *)

Lemma le32_value : forall v, v < 2 ^ 32 -> le_value (le32 v) = v.
Proof. intros v H. change (2 ^ 32) with 4294967296 in H. unfold le32, lobyte, hibyte, loword, hiword. cbn [le_value]. lia. Qed.

(** Identification that GET_ID reports for a request type. *)
Lemma le32_le_bytes : forall v, v < 2 ^ 32 -> le32 v = le_bytes 4 v.
Proof.
  intros v H. change (2 ^ 32) with 4294967296 in H. unfold le32, lobyte, hibyte, loword, hiword. cbn [le_bytes].
  f_equal; [lia|]. f_equal; [lia|]. f_equal; [lia|]. f_equal; lia.
Qed.
Lemma le32_len : forall v, lenN (le32 v) = 4. Proof. reflexivity. Qed.

Lemma send8_full : forall c bs s s1, wf_cfg c -> dlc_ok c -> lenN (s_out s) = c_max_cto c -> lenN bs = 8 -> same_session s1 s ->
  exists s' o, send8 c 8 bs s = Ok (s', o) /\ sends o (padded c bs) /\ same_session s1 s'.
Proof.
  intros c bs s s1 W D L Lb S. pose proof (send8_ans c 8 bs s s1 W D L ltac:(lia) Lb) as H.
  rewrite take_all in H by lia. apply H; auto.
  assert (X : lenN (dropN 8 bs) = 0) by (rewrite lenN_drop; lia). unfold lenN in X.
  destruct (dropN 8 bs); [reflexivity|cbn in X; lia].
Qed.

Lemma get_id_thm : forall c m l s o e t, reachable c m l s o -> dlc_ok c -> ready s -> wf_env c e ->
  c_opt c 0xFA = true -> lenN (0xFA :: t) <= c_ctobuf c ->
  match ident c e (gb (rxbuf s (0xFA :: t)) 1) with
  | Some (a, len) => answers c e (0xFA :: t) s ([0xFF; 0; 0; 0] ++ le_bytes 4 len) (set_mta 0 a s)
  | None => answers c e (0xFA :: t) s ([0xFF; 0; 0; 0] ++ le_bytes 4 0) s
  end.
Proof.
  intros c m l s o e t R D Hr We Ho L. pose proof (proj1 R) as W. set (f := 0xFA :: t) in *.
  assert (E : step c e (ORecv f) s = h_get_id c e (rx c f s)).
  { apply (exec_val c m l s o); auto. tbl. }
  unfold answers. rewrite E. unfold h_get_id. rewrite rx_in.
  change (if gb (rxbuf s f) 1 =? 0 then Some (c_id0 c) else if gb (rxbuf s f) 1 =? 1 then Some (c_id1 c)
          else if c_idhook c then e_getid e (gb (rxbuf s f) 1) else None) with (ident c e (gb (rxbuf s f) 1)).
  assert (Hl : forall a len, ident c e (gb (rxbuf s f) 1) = Some (a, len) -> len < 2 ^ 32).
  { intros a len. unfold ident. pose proof (wf_id0 c W) as I0. pose proof (wf_id1 c W) as I1.
    change (2 ^ 16) with 65536 in *. change (2 ^ 32) with 4294967296.
    destruct (_ =? 0); [intro Z; injection Z; intro Z1; rewrite Z1 in I0; cbn in I0; lia|].
    destruct (_ =? 1); [intro Z; injection Z; intro Z1; rewrite Z1 in I1; cbn in I1; lia|].
    destruct (c_idhook c); [|discriminate]. intro Z. apply (wfe_id c e We) in Z. change (2 ^ 32) with 4294967296 in Z. lia. }
  destruct (ident c e (gb (rxbuf s f) 1)) as [(a & len)|].
  - rewrite <- le32_le_bytes by (eapply Hl; eauto). apply send8_full; auto.
    + unfold rx. ss. apply (b_out _ _ (i_b _ _ (reach_inv _ _ _ _ _ R))).
    + unfold same_session, rx. ss. repeat split.
  - rewrite <- le32_le_bytes by reflexivity. apply send8_full; auto.
    + eapply rx_out; eauto.
    + apply ss_rx.
Qed.

Lemma clock_thm : forall c m l s o e t, reachable c m l s o -> dlc_ok c -> ready s -> wf_env c e ->
  c_daq c = true -> c_opt c 0xDC = true -> ~ programming s -> ~ locked c 4 s -> lenN (0xDC :: t) <= c_ctobuf c ->
  answers c e (0xDC :: t) s ([0xFF; 0; 0; 0] ++ le_bytes 4 (e_timer e)) s.
Proof.
  intros c m l s o e t R D Hr We Hd Ho P Lk L. pose proof (proj1 R) as W. set (f := 0xDC :: t) in *.
  assert (E : step c e (ORecv f) s = h_daq_clock c e (rx c f s)).
  { apply (exec_val c m l s o); auto. tbl. }
  unfold answers. rewrite E. unfold h_daq_clock. rewrite pgm_idle_no by exact P. rewrite unlocked_no by exact Lk.
  rewrite <- le32_le_bytes by apply We. apply send8_full; auto; [eapply rx_out; eauto|apply ss_rx].
Qed.

Lemma processor_info_thm : forall c m l s o e t, reachable c m l s o -> dlc_ok c -> ready s ->
  c_daq c = true -> c_opt c 0xDA = true -> ~ programming s -> ~ locked c 4 s -> lenN (0xDA :: t) <= c_ctobuf c ->
  answers c e (0xDA :: t) s ([0xFF; (if c_ts c then 0x13 else 3)] ++ le_bytes 2 (d_lcnt (s_daq s)) ++ le_bytes 2 (c_nevents c) ++ [0; 0]) s.
Proof.
  intros c m l s o e t R D Hr Hd Ho P Lk L. pose proof (proj1 R) as W. set (f := 0xDA :: t) in *.
  assert (E : step c e (ORecv f) s = h_daq_processor_info c e (rx c f s)).
  { apply (exec_val c m l s o); auto. tbl. }
  unfold answers. rewrite E. unfold h_daq_processor_info. rewrite pgm_idle_no by exact P. rewrite unlocked_no by exact Lk.
  assert (Hn : u16 (c_nevents c) = c_nevents c).
  { unfold u16, c_nevents. pose proof (wf_ev c W Hd). change (2 ^ 16) with 65536. lia. }
  rewrite Hn. assert (Hp : daq_properties c = if c_ts c then 0x13 else 3) by (unfold daq_properties; destruct (c_prescaler c), (c_ts c); reflexivity).
  rewrite Hp. apply send8_full; auto; [eapply rx_out; eauto|apply ss_rx].
Qed.

Lemma intel_thm : forall c k v, c_motorola c = false -> v < 256 ^ N.of_nat k -> field c (le_bytes k v) = v.
Proof. intros c k v H V. unfold field. rewrite H, le_value_bytes. now apply N.mod_small. Qed.

Lemma connect_dto : forall c, wf_cfg c -> at_ (connect_response c) 4 2 = le_bytes 2 (c_max_dto c).
Proof.
  intros c W. pose proof (wf_dto c W). unfold connect_response, at_. cbn [skipn firstn le_bytes]. f_equal. f_equal. lia.
Qed.

Lemma motorola_connect : forall c, c_motorola c = true -> wf_cfg c -> c_max_dto c mod 256 <> c_max_dto c / 256 ->
  field c (at_ (connect_response c) 4 2) <> c_max_dto c.
Proof.
  intros c M W H. rewrite (connect_dto c W). unfold field, be_value. rewrite M. cbn [le_bytes rev app le_value].
  pose proof (wf_dto c W). lia.
Qed.
