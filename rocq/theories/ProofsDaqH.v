(** WRITE_DAQ_MULTIPLE, uniqueness of the represented configuration, truncated numbers (C34, C37, C65). *)
From Coq Require Import NArith ZArith List Bool Lia ZifyBool ZifyNat ZifyN.
From Verif Require Import Base Config Codec Checksum State Queue Daq Core Spec Lists Effects Handlers HTx HInv HInv2
  HFields HResp DaqInv HSpec Steps Demo Ops ProofsSession Exec ProofsFrames SpecProt ProofsProt SpecMem ProofsMem ProofsWrite SpecDaq ProofsDaqA ProofsDaqB ProofsDaqC ProofsDaqD.
Import ListNotations.
Open Scope N_scope.
Ltac Zify.zify_post_hook ::= Z.div_mod_to_equations.

(** ** The tables determine the configuration *)
Lemma header_one : forall d i n f n' f', header d i n f -> header d i n' f' -> n = n' /\ f = f'.
Proof.
  intros d i n f n' f' H H'. unfold header in *. destruct (body_at d i) as [b|]; [|destruct H as [H|[H _]]; discriminate].
  destruct H as [H|(H & -> & ->)], H' as [H'|(H' & -> & ->)]; split; congruence.
Qed.
Lemma holds_one : forall d i x y, holds d i x -> holds d i y -> x = y.
Proof.
  intros d i (a & b) (a' & b') H H'. unfold holds in *. cbn [fst snd] in *. destruct (body_at d i) as [z|]; [|destruct H as [H|[H _]]; discriminate].
  destruct H as [H|(H & H1)], H' as [H'|(H' & H1')]; congruence.
Qed.
Lemma get_ext : forall A (a b : list A), lenN a = lenN b -> (forall i x, getN a i = Some x -> getN b i = Some x) -> a = b.
Proof.
  intros A a b L H. apply getN_ext. intro i. destruct (getN a i) as [x|] eqn:E; [now rewrite (H _ _ E)|].
  symmetry. apply getN_None. apply getN_None in E. lia.
Qed.
Lemma rep_unique : forall c s t t', represents c s t -> represents c s t' -> t = t'.
Proof.
  intros c s t t' (fo & fe & R) (fo' & fe' & R'). apply get_ext; [pose proof (r_lists _ _ _ _ _ R); pose proof (r_lists _ _ _ _ _ R'); congruence|].
  intros l os G. assert (Ll : l < lenN t') by (pose proof (getN_Some_lt _ _ _ _ G); pose proof (r_lists _ _ _ _ _ R); pose proof (r_lists _ _ _ _ _ R'); lia).
  destruct (getN_lt_Some _ _ _ Ll) as (os' & G'). rewrite G'. f_equal.
  destruct (header_one _ _ _ _ _ _ (r_list _ _ _ _ _ R _ _ G) (r_list _ _ _ _ _ R' _ _ G')) as (E1 & E2).
  symmetry; apply get_ext; [exact E1|]. intros o es Ge.
  destruct (getN_lt_Some _ os' o) as (es' & Ge'); [pose proof (getN_Some_lt _ _ _ _ Ge); lia|]. rewrite Ge'. f_equal.
  assert (O : odt_at t l o = Some es) by (unfold odt_at; now rewrite G). assert (O' : odt_at t' l o = Some es') by (unfold odt_at; now rewrite G').
  pose proof (r_odt _ _ _ _ _ R _ _ _ O) as H. rewrite E2 in H. destruct (header_one _ _ _ _ _ _ H (r_odt _ _ _ _ _ R' _ _ _ O')) as (F1 & F2).
  symmetry; apply get_ext; [exact F1|]. intros k x Gx.
  destruct (getN_lt_Some _ es' k) as (x' & Gx'); [pose proof (getN_Some_lt _ _ _ _ Gx); lia|]. rewrite Gx'. f_equal.
  assert (X : entry_at t l o k = Some x) by (unfold entry_at; now rewrite O). assert (X' : entry_at t' l o k = Some x') by (unfold entry_at; now rewrite O').
  pose proof (r_entry _ _ _ _ _ R _ _ _ _ X) as K. rewrite F2 in K. exact (eq_sym (holds_one _ _ _ _ K (r_entry _ _ _ _ _ R' _ _ _ _ X'))).
Qed.

Lemma put_entry_frame : forall t l o k x y l' o' k', entry_at t l o k = Some y ->
  entry_at (put_entry t l o k x) l' o' k' = (if (l =? l') && (o =? o') && (k =? k') then Some x else entry_at t l' o' k') /\
  lenN (put_entry t l o k x) = lenN t /\
  (forall es, odt_at t l' o' = Some es -> exists es', odt_at (put_entry t l o k x) l' o' = Some es' /\ lenN es' = lenN es).
Proof.
  intros t l o k x y l' o' k' H. destruct (entry_odt _ _ _ _ _ H) as (es & H1 & H2). destruct (odt_list _ _ _ _ H1) as (os & H3 & H4).
  pose proof (getN_Some_lt _ _ _ _ H2). pose proof (getN_Some_lt _ _ _ _ H3). pose proof (getN_Some_lt _ _ _ _ H4).
  unfold put_entry. rewrite H1. unfold put_entries. rewrite H3. rewrite !put_upd by auto. rewrite entry_upd by auto. split; [|split].
  - destruct (N.eqb_spec l l') as [<-|Nl]; [|reflexivity]. destruct (N.eqb_spec o o') as [<-|No]; cbn [andb].
    + rewrite getN_upd_same by auto. destruct (N.eqb_spec k k') as [<-|Nk]; [now rewrite getN_upd_same|]. rewrite getN_upd_other by auto. unfold entry_at. now rewrite H1.
    + rewrite getN_upd_other by auto. unfold entry_at, odt_at. now rewrite H3.
  - now rewrite lenN_upd.
  - intros es0 E0. rewrite odt_upd by auto. destruct (N.eqb_spec l l') as [<-|Nl]; [|eauto]. destruct (N.eqb_spec o o') as [<-|No].
    + rewrite getN_upd_same by auto. eexists. split; [reflexivity|]. rewrite lenN_upd. congruence.
    + rewrite getN_upd_other by auto. exists es0. split; [|reflexivity]. unfold odt_at in E0. now rewrite H3 in E0.
Qed.

(** Every number below the number of ODTs is the identifier of one. *)
Lemma pid_onto : forall t p, p < lenN (concat t) -> exists l o es, odt_at t l o = Some es /\ odts_before t l + o = p.
Proof.
  induction t as [|os t IH]; intros p Hp; [exfalso; change (lenN (concat [])) with 0 in Hp; lia|]. cbn [concat] in Hp. rewrite lenN_app in Hp.
  destruct (N.ltb_spec p (lenN os)) as [X|X].
  - destruct (getN_lt_Some _ os p X) as (es & G). exists 0, p, es. split; [exact G|]. reflexivity.
  - destruct (IH (p - lenN os)) as (l & o & es & G & E); [lia|]. exists (l + 1), o, es. split.
    + unfold odt_at, getN in *. replace (N.to_nat (l + 1)) with (S (N.to_nat l)) by lia. exact G.
    + unfold odts_before in *. replace (N.to_nat (l + 1)) with (S (N.to_nat l)) by lia. cbn [firstn concat]. rewrite lenN_app. lia.
Qed.
Lemma pid_reserved : forall t, 252 < lenN (concat t) -> exists l o es, odt_at t l o = Some es /\ (odts_before t l + o) mod 256 = 0xFC.
Proof. intros t H. destruct (pid_onto t 252 H) as (l & o & es & G & E). exists l, o, es. rewrite E. auto. Qed.
Lemma pid_shared : forall t, 256 < lenN (concat t) -> exists l o es l' o' es', odt_at t l o = Some es /\ odt_at t l' o' = Some es' /\
  (odts_before t l + o) mod 256 = (odts_before t l' + o') mod 256 /\ ~ (l = l' /\ o = o').
Proof.
  intros t H. destruct (pid_onto t 0) as (l & o & es & G & E); [lia|]. destruct (pid_onto t 256 H) as (l' & o' & es' & G' & E').
  exists l, o, es, l', o', es'. rewrite E, E'. repeat split; auto. intros (-> & ->). lia.
Qed.

(** ** WRITE_DAQ_MULTIPLE *)
Section Multi.
Variables (c : cfg) (W : wf_cfg c) (Sm : c_max_ent c < 65536).
Lemma write_one : forall d t fo fe sz a x, dinv c d -> represents_by fo fe c d t -> entry_at t (d_plist d) (d_podt d) (d_pent d) = Some x ->
  exists es, write_daq_entry c sz a d = Ok (set_d_pent (d_pent d + 1) (set_d_ents es d)).
Proof.
  intros d t fo fe sz a x I R V. destruct (rep_entry_index c W Sm _ _ _ _ _ _ _ _ I R V) as (Ei & Bi).
  assert (Bk : d_pent d + 1 < we c) by (pose proof (ent_lt_we c W); destruct (entry_odt _ _ _ _ _ V) as (es & O1 & O2); pose proof (r_entry_in _ _ _ _ _ R _ _ _ _ V); destruct (d_layout _ _ I) as (L1 & L2 & _); rewrite (d_len _ _ I) in L2; pose proof (r_count _ _ _ _ _ R); destruct (odt_list _ _ _ _ O1) as (os & O3 & _); pose proof (getN_Some_lt _ _ _ _ O3); lia).
  unfold write_daq_entry. rewrite Ei. cbn [bind]. unfold ent_at. destruct (getN_lt_Some _ (d_ents d) (fe (d_plist d) (d_podt d) + d_pent d)) as (z & G); [rewrite (d_len _ _ I); exact Bi|].
  rewrite G. cbn [bind]. rewrite N.mod_small by exact Bk. eauto.
Qed.
Lemma write_many : forall buf n i d t fo fe, dinv c d -> represents_by fo fe c d t ->
  (forall j, j < N.of_nat n -> exists x, entry_at t (d_plist d) (d_podt d) (d_pent d + j) = Some x) ->
  exists es, write_multiple c buf n i d = Ok (set_d_pent (d_pent d + N.of_nat n) (set_d_ents es d)).
Proof.
  induction n; intros i d t fo fe I R V.
  - exists (d_ents d). cbn. rewrite N.add_0_r. destruct d. reflexivity.
  - cbn [write_multiple]. destruct (V 0) as (x & V0); [lia|]. rewrite N.add_0_r in V0.
    destruct (write_one d t fo fe (gb buf (i * 8 + 2 + 1)) (gd c buf (i * 8 + 2 + 2)) x I R V0) as (es & E). rewrite E. cbn [bind].
    pose proof (rep_write c W Sm _ _ _ _ _ _ _ _ I R V0 E) as R1. pose proof (dinv_write _ _ _ _ _ I E) as I1.
    destruct (IHn (i + 1) _ _ _ _ I1 R1) as (es2 & E2).
    + intros j Hj. ss. destruct (V (j + 1)) as (y & V1); [lia|]. replace (d_pent d + 1 + j) with (d_pent d + (j + 1)) by lia.
      rewrite (put_entry_at _ _ _ _ _ _ V0). destruct (_ =? _); eauto.
    + exists es2. rewrite E2. ss. f_equal. replace (d_pent d + 1 + N.of_nat n) with (d_pent d + N.of_nat (S n)) by lia. reflexivity.
Qed.
End Multi.

Section Cmds.
Variables (c : cfg) (m : mem) (l : list (env * op)) (s : st) (o : list pkt) (e : env).
Variables (R : reachable c m l s o) (RD : ready s) (D : dlc_ok c) (Op : daq_open c s) (Sm : c_max_ent c < 65536).
Let W := proj1 R.
Let Hd := proj1 Op.
Let I := i_d _ _ (reach_inv _ _ _ _ _ R).

Lemma multiple_thm : forall t n b xs, let f := 0xC7 :: n :: b in let d := s_daq s in
  represents c s t -> ~ measuring s -> lenN f <= c_ctobuf c -> c_opt c 0xC7 = true -> n * 8 + 2 <= c_max_cto c ->
  elements c (N.to_nat n) b = Some xs ->
  (forall i, i < n -> exists x, entry_at t (d_plist d) (d_podt d) (d_pent d + i) = Some x) ->
  exists es, let d' := set_d_pent (d_pent d + n) (set_d_ents es d) in
    answers c e f s [0xFF] (with_daq d' s) /\
    represents c (with_daq d' s) (put_all t (d_plist d) (d_podt d) (d_pent d) xs).
Proof.
  intros t n b xs f d (fo & fe & Rp) M Hl Ho Hn He V.
  assert (Ec : step c e (ORecv f) s = (d <- write_multiple c (rxbuf s f) (N.to_nat n) 0 (s_daq s) ;; pos c (set_s_daq d (rx c f s)))).
  { unfold f. assert (En : entry c 0xC7 = Some (h_write_daq_multiple c)) by tbl. rewrite (exec_val c m l s o e 0xC7 _ _ R RD Hl En).
    unfold h_write_daq_multiple. rewrite rx_in. change (gb (rxbuf s _) 1) with n. destruct (N.ltb_spec (c_max_cto c) (n * 8 + 2)); [lia|].
    rewrite (stopped_rx c s Op) by exact M.
    assert (Lb : lenN (rxbuf s (0xC7 :: n :: b)) = c_ctobuf c).
    { rewrite <- (rx_in c). unfold rx. ss. rewrite lenN_splice; [apply (b_in _ _ (i_b _ _ (reach_inv _ _ _ _ _ R)))|]. rewrite (b_in _ _ (i_b _ _ (reach_inv _ _ _ _ _ R))). exact Hl. }
    rewrite Lb. unfold c_ctobuf. destruct (N.ltb_spec (c_max_cto c + c_offset c) (n * 8 + 2)); [lia|]. reflexivity. }
  destruct (write_many c W Sm (rxbuf s f) (N.to_nat n) 0 (s_daq s) t fo fe I Rp) as (es & E); [rewrite N2Nat.id; exact V|].
  rewrite N2Nat.id in E. exists es. cbv zeta. fold d in Ec. fold d in E. rewrite E in Ec. cbn [bind] in Ec. split.
  - unfold answers. rewrite Ec. apply pos_ans; auto; [exact (rx_out c m l s o f R)|apply ss_daq].
  - exists fo, fe. unfold with_daq. ss. pose proof (elements_app c (N.to_nat n) b xs (skipn (length f) (s_in s)) He) as X.
    eapply (rep_multiple c W Sm); [exact I|exact Rp|rewrite N2Nat.id; exact V| |exact X|exact E]. reflexivity.
Qed.

(** WRITE_DAQ behind the last entry of an ODT defines the first entry of the ODT
    whose entries were allocated next. *)
Lemma write_next : forall t fo fe r n x a0 a1 a2 a3 tl es l' k' y, let f := 0xE1 :: r :: n :: x :: a0 :: a1 :: a2 :: a3 :: tl in
  let d := s_daq s in
  represents_by fo fe c d t -> ~ measuring s -> lenN f <= c_ctobuf c -> odt_at t (d_plist d) (d_podt d) = Some es ->
  d_pent d = lenN es -> entry_at t l' k' 0 = Some y -> fe l' k' = fe (d_plist d) (d_podt d) + lenN es ->
  exists d', answers c e f s [0xFF] (with_daq d' s) /\
    represents c (with_daq d' s) (put_entry t l' k' 0 (field c [a0; a1; a2; a3], n)).
Proof.
  intros t fo fe r n x a0 a1 a2 a3 tl es l' k' y f d Rp M Hl V Hp Hy Hf.
  pose proof (write_daq_exec c m l s o e R RD Op r n x a0 a1 a2 a3 tl M Hl) as Ec. fold f in Ec.
  set (dp := set_d_pent 0 (set_d_podt k' (set_d_plist l' d))).
  assert (St : same_tables d dp) by (unfold dp; repeat split).
  assert (Ip : dinv c dp) by (apply (dinv_same c d); auto; apply (d_modeb _ _ I)).
  pose proof (rep_tables c fo fe d dp t St Rp) as Rpp.
  destruct (rep_entry_index c W Sm _ _ _ _ _ _ _ _ Ip Rpp Hy) as (Ey & By).
  destruct (write_one c W Sm dp t fo fe n (field c [a0; a1; a2; a3]) y Ip Rpp Hy) as (es' & E).
  assert (Ei : entry_index c d (d_plist d) (d_podt d) (d_pent d) = Ok (fe l' k' + 0)).
  { unfold entry_index. destruct (rep_odt_index c W Sm _ _ _ _ _ _ _ I Rp V) as (E1 & _). fold d in E1. rewrite E1. cbn [bind].
    rewrite (hdr_val _ _ _ _ (r_odt _ _ _ _ _ Rp _ _ _ V)). cbn [bind]. replace (u16 (d_pent d)) with (d_pent d) by (unfold u16; symmetry; apply N.mod_small; change (2 ^ 16) with 65536; lia).
    rewrite Hp, <- Hf, N.add_0_r. rewrite N.add_0_r in By. pose proof (ent_lt_we c W). rewrite N.mod_small by lia. reflexivity. }
  assert (Ed : exists d', write_daq_entry c n (field c [a0; a1; a2; a3]) d = Ok d' /\ same_tables (set_d_pent (d_pent dp + 1) (set_d_ents es' dp)) d').
  { unfold write_daq_entry in E |- *. rewrite Ei. change (entry_index c dp (d_plist dp) (d_podt dp) (d_pent dp)) with (entry_index c dp l' k' 0) in E. rewrite Ey in E. cbn [bind] in *.
    change (ent_at dp) with (ent_at d) in E. destruct (ent_at d (fe l' k' + 0)) as [z|]; [|discriminate]. cbn [bind] in *. eexists. split; [reflexivity|].
    apply (f_equal (fun q => match q with Ok v => d_ents v | UB _ => [] end)) in E. ss_in E. unfold dp in *. repeat split; ss; auto. }
  destruct Ed as (d' & Ed & S'). exists d'. fold d in Ec. rewrite Ed in Ec. cbn [bind] in Ec. split.
  - unfold answers. rewrite Ec. apply pos_ans; auto; [exact (rx_out c m l s o f R)|apply ss_daq].
  - exists fo, fe. unfold with_daq. ss. apply (rep_tables c fo fe _ _ _ S'). exact (rep_write c W Sm _ _ _ _ _ _ _ _ Ip Rpp Hy E).
Qed.

(** ** Numbers that do not fit (pools below 256 entities) *)
Lemma alloc_trunc : forall t r a b tl, let f := 0xD5 :: r :: a :: b :: tl in let n := field c [a; b] in
  c_max_ent c < 256 -> represents c s t -> bytes f -> lenN f <= c_ctobuf c -> c_opt c 0xD5 = true ->
  (d_alloc (s_daq s) = AFree \/ d_alloc (s_daq s) = ADaq) -> d_ecnt (s_daq s) + n mod 256 <= c_max_ent c ->
  exists d, answers c e f s [0xFF] (with_daq d s) /\ represents c (with_daq d s) (t ++ repeat [] (N.to_nat (n mod 256))).
Proof.
  intros t r a b tl f n Hs (fo & fe & Rp) Wf Hl Ho Ha Hn.
  assert (Wm : we c = 256). { destruct (we_cases c) as [(A & ->)|[(A & ->)|(A & ->)]]; try reflexivity; lia. }
  assert (Ec : step c e (ORecv f) s = ('(d, r) <- daq_alloc c (n mod 256) (s_daq s) ;; send_result c r (set_s_daq d (rx c f s)))).
  { unfold f. assert (En : entry c 0xD5 = Some (h_alloc_daq c)) by tbl. rewrite (exec_val c m l s o e 0xD5 _ _ R RD Hl En).
    unfold h_alloc_daq. rewrite (open_rx c s Op), rx_in, gw_eq. change (gb (rxbuf s _) 2) with a. change (gb (rxbuf s _) (2 + 1)) with b. fold n. now rewrite Wm. }
  destruct (d_layout _ _ I) as (L1 & L2 & L3). rewrite (d_len _ _ I) in L2.
  assert (Lt : n mod 256 < 256) by (apply N.mod_lt; lia).
  destruct (daq_alloc c (n mod 256) (s_daq s)) as [(d & r0)|u] eqn:E.
  - assert (r0 = 0xFF).
    { unfold daq_alloc in E. replace (negb (allowed (d_alloc (s_daq s)) TDaq)) with false in E by (destruct Ha as [->| ->]; reflexivity).
      rewrite ent_sum_exact in E by (auto; lia). destruct (N.ltb_spec (c_max_ent c) (d_ecnt (s_daq s) + n mod 256)); [lia|]. destruct (existsb _ _); [discriminate|]. now injection E as _ <-. }
    subst r0. exists d. cbn [bind] in Ec. split.
    + unfold answers. rewrite Ec. apply pos_ans; auto; [exact (rx_out c m l s o f R)|apply ss_daq].
    + unfold represents, with_daq. ss. do 2 eexists. eapply rep_alloc; eauto. lia.
  - exfalso. unfold daq_alloc in E. replace (negb (allowed (d_alloc (s_daq s)) TDaq)) with false in E by (destruct Ha as [->| ->]; reflexivity).
    rewrite ent_sum_exact in E by (auto; lia). destruct (N.ltb_spec (c_max_ent c) (d_ecnt (s_daq s) + n mod 256)); [lia|].
    destruct (existsb _ _) eqn:X; [|discriminate]. apply existsb_exists in X. destruct X as (x & X1 & X2).
    apply In_nth_error in X1. destruct X1 as (i & X1). assert (X1' : getN (takeN (d_ecnt (s_daq s) + n mod 256 - d_ecnt (s_daq s)) (dropN (d_ecnt (s_daq s)) (d_ents (s_daq s)))) (N.of_nat i) = Some x)
      by (unfold getN; now rewrite Nnat.Nat2N.id).
    pose proof (getN_Some_lt _ _ _ _ X1') as Hi. rewrite lenN_take in Hi. rewrite getN_take in X1' by lia. rewrite getN_drop in X1'.
    pose proof (r_free _ _ _ _ _ Rp (d_ecnt (s_daq s) + N.of_nat i)) as Fr. unfold body_at in Fr. rewrite X1' in Fr. cbn [option_map] in Fr.
    specialize (Fr ltac:(lia)). injection Fr as Fr. unfold is_bent in X2. rewrite Fr in X2. discriminate.
Qed.
End Cmds.
