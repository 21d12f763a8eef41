(** Corollaries used by PropertiesMem. *)
From Coq Require Import NArith ZArith List Bool Lia ZifyBool ZifyNat ZifyN.
From Verif Require Import Base Config Codec Checksum State Queue Daq Core Spec Lists Effects Handlers HTx HInv HInv2
  HFields HResp DaqInv HSpec Steps Demo Ops ProofsSession Exec ProofsFrames SpecProt ProofsProt SpecMem ProofsMem ProofsBlock
  ProofsWrite ProofsModify.
Import ListNotations.
Open Scope N_scope.
Ltac Zify.zify_post_hook ::= Z.div_mod_to_equations.

Lemma stores_ans : forall c e f s b bs s1 (A B : list pkt -> Prop), (forall o, A o -> B o) ->
  stores c e f s b bs s1 A -> stores c e f s b bs s1 B.
Proof. intros c e f s b bs s1 A B H (s' & o & m' & E & X & Wr & S). exists s', o, m'. auto. Qed.

Lemma next_any : forall c m l s o e r bs t, let f := 0xEF :: r :: bs ++ t in let b := target c e (s_mext s) (s_maddr s) in
  reachable c m l s o -> ready s -> dlc_ok c -> c_cal c = true -> c_opt c 0xEF = true -> ~ programming s -> s_mact s = true ->
  lenN f <= c_ctobuf c -> c_buf_addr c + 2 < 2 ^ 32 -> lenN bs = N.min r (c_max_cto c - 2) -> 1 <= r ->
  b <> 0 -> in_space c b (lenN bs) -> r <> s_mrem s ->
  exists s1, stores c e f s b bs s1 (fun o => o = [] \/ sends o (padded c [0xFF])).
Proof.
  intros c m l s o e r bs t f b R RD D C O P A L Bu Lb R1 B0 I _.
  eexists. eapply stores_ans; [|exact (next_thm c m l s o e R RD r bs t D C O P A L Bu Lb R1 B0 I)].
  cbn beta. intros o0. destruct (_ =? 0); auto.
Qed.

Lemma next_overrun : forall c m l s o e r bs t, let f := 0xEF :: r :: bs ++ t in let b := target c e (s_mext s) (s_maddr s) in
  reachable c m l s o -> ready s -> dlc_ok c -> c_cal c = true -> c_opt c 0xEF = true -> ~ programming s -> s_mact s = true ->
  lenN f <= c_ctobuf c -> c_buf_addr c + 2 < 2 ^ 32 -> lenN bs = N.min r (c_max_cto c - 2) -> 1 <= r ->
  b <> 0 -> in_space c b (lenN bs) -> s_mrem s < lenN bs ->
  stores c e f s b bs (set_s_mrem (256 - (lenN bs - s_mrem s)) (set_s_mact true (advanced c (lenN bs) s))) (fun o => o = []).
Proof.
  intros c m l s o e r bs t f b R RD D C O P A L Bu Lb R1 B0 I Hr.
  pose proof (next_thm c m l s o e R RD r bs t D C O P A L Bu Lb R1 B0 I) as H. cbv zeta in H.
  pose proof (wf_cto _ (proj1 R)) as Wc. rewrite N.mod_small in H by lia.
  replace (s_mrem s + 256 - lenN bs) with (256 - (lenN bs - s_mrem s)) in H by lia.
  assert (X : (256 - (lenN bs - s_mrem s) =? 0) = false) by (apply N.eqb_neq; lia). rewrite X in H. exact H.
Qed.

Lemma short_download_mta : forall c m l s o e r x a0 a1 a2 a3 bs t, let n := lenN bs in
  let f := 0xED :: n :: r :: x :: a0 :: a1 :: a2 :: a3 :: bs ++ t in let a := field c [a0; a1; a2; a3] in let b := target c e x a in
  reachable c m l s o -> ready s -> dlc_ok c -> c_cal c = true -> c_opt c 0xED = true -> ~ programming s -> bytes f -> lenN f <= c_ctobuf c ->
  granted c e x a n true false -> 1 <= n <= c_max_cto c - 8 -> b <> 0 -> in_space c b n ->
  exists s' o', step c e (ORecv f) s = Ok (s', o') /\ sends o' (padded c [0xFF]) /\
    (s_mext s' = x /\ s_maddr s' = (a + n) mod aspace c <-> s_mext s = x /\ s_maddr s = a).
Proof.
  intros c m l s o e r x a0 a1 a2 a3 bs t n f a b R RD D C O P Bf L G N1 B0 I.
  destruct (short_download_thm c m l s o e R RD r x a0 a1 a2 a3 bs t D C O P L G N1 B0 I) as (s' & o' & m' & E & A & _ & S).
  exists s', o'. split; [exact E|]. split; [exact A|]. unfold same_session, advanced, mta_at in S. ss_in S.
  destruct S as (_ & _ & _ & _ & _ & Sx & Sa & _). rewrite Sx, Sa.
  assert (Ha : a < aspace c).
  { unfold a. pose proof (wf_ptr _ (proj1 R)) as Wp.
    assert (field c [a0; a1; a2; a3] < 2 ^ 32).
    { unfold f, bytes in Bf. repeat match goal with H : Forall _ (_ :: _) |- _ => inversion H; subst; clear H end.
      unfold field, be_value. destruct (c_motorola c); cbn [rev app le_value]; lia. }
    unfold aspace. destruct Wp as [-> | ->]; [exact H|]. eapply N.lt_trans; [exact H|reflexivity]. }
  pose proof (b_maddr _ _ (i_b _ _ (reach_inv _ _ _ _ _ R))) as Hm. pose proof (aspace_pos c) as Hp.
  fold n. set (A' := aspace c) in *. clearbody A' a n.
  split; intros (E1 & E2); split; auto; [|now rewrite E2].
  assert (F : forall p q, p < A' -> q < A' -> (p + n) mod A' = (q + n) mod A' -> p <= q).
  { clear. intros p q Hp Hq H. destruct (N.le_gt_cases p q) as [|G]; [auto|]. exfalso.
    assert (H2 : ((p - q) + (q + n)) mod A' = (q + n) mod A') by (replace (p - q + (q + n)) with (p + n) by lia; auto).
    rewrite <- N.add_mod_idemp_r in H2 by lia. set (k := (q + n) mod A') in *. assert (k < A') by (apply N.mod_lt; lia). clearbody k.
    destruct (N.lt_ge_cases (p - q + k) A'); [rewrite N.mod_small in H2 by auto; lia|].
    replace (p - q + k) with ((p - q + k - A') + 1 * A') in H2 by lia. rewrite N.mod_add, N.mod_small in H2 by lia. lia. }
  apply N.le_antisymm; apply F; auto.
Qed.

Lemma modify_iff : forall c m l s o e sh a0 a1 x0 x1 t, let f := 0xEC :: sh :: a0 :: a1 :: x0 :: x1 :: t in
  let am := field c [a0; a1] in let xm := field c [x0; x1] in let v := host_word c (s_mem s) (s_maddr s) in
  reachable c m l s o -> ready s ->
  dlc_ok c -> c_cal c = true -> c_opt c 0xEC = true -> lenN f <= c_ctobuf c -> granted c e (s_mext s) (s_maddr s) 2 true false ->
  s_maddr s <> 0 -> in_space c (s_maddr s) 4 ->
  sh <= 31 -> N.shiftl (N.lxor am 0xFFFF) sh < 2 ^ 31 -> N.shiftl xm sh < 2 ^ 31 ->
  exists bs s' o' m', lenN bs = 4 /\ step c e (ORecv f) s = Ok (s', o') /\ sends o' (padded c [0xFF]) /\
    wrote (s_mem s) (s_maddr s) bs m' /\ same_session (set_s_mem m' s) s' /\
    host_word c m' (s_maddr s) = N.lxor (modify_spec v sh am xm) (N.ldiff (N.shiftl xm sh) v) /\
    (host_word c m' (s_maddr s) = modify_spec v sh am xm <-> N.ldiff (N.shiftl xm sh) v = 0).
Proof.
  intros c m l s o e sh a0 a1 x0 x1 t f am xm v R RD D C O L G A I H1 H2 H3.
  destruct (modify_thm c m l s o e R RD sh a0 a1 x0 x1 t D C O L G A I H1 H2 H3) as (bs & Lb & (s' & o' & m' & E & An & Wr & S) & H).
  exists bs, s', o', m'. specialize (H m' Wr). fold am xm v in H.
  do 6 (split; [auto|]). rewrite H. split; intro X.
  - rewrite <- (N.lxor_0_r (modify_spec v sh am xm)) in X at 2. apply (f_equal (N.lxor (modify_spec v sh am xm))) in X.
    now rewrite <- !N.lxor_assoc, !N.lxor_nilpotent, !N.lxor_0_l in X.
  - now rewrite X, N.lxor_0_r.
Qed.

Definition writes_no (x : op) : Prop :=
  (forall a bs, x <> OAppWrite a bs) /\ (forall f k, x = ORecv f -> is_cmd k f -> ~ In k [0xF0; 0xEF; 0xEE; 0xED; 0xEC]).
Lemma only_writes_run : forall c l s s' o, wf_run c l -> run c l s = Ok (s', o) ->
  (forall e x, In (e, x) l -> (forall a bs, x <> OAppWrite a bs) /\ (forall f k, x = ORecv f -> is_cmd k f -> ~ In k [0xF0; 0xEF; 0xEE; 0xED; 0xEC])) ->
  s_mem s' = s_mem s.
Proof.
  intros c l. induction l as [|[e x] l IH]; intros s s' o Wr H Q.
  - cbn in H. inv. reflexivity.
  - apply run_cons in H. destruct H as (s1 & o1 & o2 & H1 & H2 & ->). inversion Wr; subst.
    destruct (Q e x (or_introl eq_refl)) as (Q1 & Q2).
    rewrite (IH _ _ _ ltac:(auto) H2 ltac:(intros; apply (Q e0); right; auto)).
    eapply only_writes; eauto.
Qed.

Lemma program_mem : forall c m l s o e n t, reachable c m l s o -> ready s -> dlc_ok c -> c_pgm c = true -> programming s ->
  lenN (0xD0 :: n :: t) <= c_ctobuf c -> n < 256 -> granted c e (s_mext s) (s_maddr s) n true true ->
  exists s' o', step c e (ORecv (0xD0 :: n :: t)) s = Ok (s', o') /\ sends o' (padded c [0xFF]) /\
    same_session (advanced c n s) s' /\ s_mem s' = s_mem s.
Proof.
  intros c m l s o e n t R RD D C P L Hn G. destruct (program_thm c m l s o e R RD n t D C P L Hn G) as (s' & o' & E & A & S).
  exists s', o'. repeat (split; [auto|]). unfold same_session, advanced, mta_at in S. ss_in S. tauto.
Qed.

Lemma upload_busy_pgm : forall c m l s o e n t, reachable c m l s o -> ready s -> dlc_ok c -> c_opt c 0xF5 = true -> c_pgm c = true -> programming s ->
  lenN (0xF5 :: n :: t) <= c_ctobuf c -> refuses c e (0xF5 :: n :: t) s 0x12.
Proof.
  intros c m l s o e n t R RD D O C P L.
  assert (E : step c e (ORecv (0xF5 :: n :: t)) s = h_upload c e (rx c (0xF5 :: n :: t) s)) by (apply (exec_val c m l s o); auto; tbl).
  unfold refuses, answers. rewrite E. unfold h_upload. rewrite pgm_idle_yes by auto.
  apply res_err_ans; auto; [apply R|eapply rx_out; eauto|lia|apply ss_rx].
Qed.

Lemma block_progress2 : forall c m l s o e n t l' s' o' b,
  reachable c m l s o -> ready s -> c_sbm c = true -> c_lock c = LockRecursive -> no_job s -> ~ programming s ->
  dlc_ok c -> c_opt c 0xF5 = true -> lenN (0xF5 :: n :: t) <= c_ctobuf c ->
  granted c e (s_mext s) (s_maddr s) n false false -> 1 <= n < 256 -> in_space c b n ->
  wf_run c ((e, ORecv (0xF5 :: n :: t)) :: l') -> Forall may_interleave l' ->
  Forall (fun x => maps_block c (s_mext s) (s_maddr s) n b (fst x)) ((e, ORecv (0xF5 :: n :: t)) :: l') ->
  run c ((e, ORecv (0xF5 :: n :: t)) :: l') s = Ok (s', o') -> (1 + mains l') * full c < n ->
  upl s c n ((1 + mains l') * full c) s' /\ s_busy s' = true /\
  payload o' = mem_at (s_mem s) b ((1 + mains l') * full c) /\ lenN (filter positive o') = 1 + mains l'.
Proof.
  intros c m l s o e n t l' s' o' b R RD B K J P D O L G N1 I Wr Q M H Hn.
  destruct (block_progress c m l s o R RD B K J P e n t l' s' o' b D O L G N1 I Wr Q M H Hn) as (U & A & C & _).
  split; [exact U|]. split; [|auto]. rewrite (u_busy _ _ _ _ _ U). now apply N.ltb_lt.
Qed.

Lemma block_complete2 : forall c m l s o e n t l' e' b s1 o1,
  reachable c m l s o -> ready s -> c_sbm c = true -> c_lock c = LockRecursive -> no_job s -> ~ programming s ->
  dlc_ok c -> c_opt c 0xF5 = true -> lenN (0xF5 :: n :: t) <= c_ctobuf c ->
  granted c e (s_mext s) (s_maddr s) n false false -> 1 <= n < 256 -> in_space c b n ->
  wf_run c ((e, ORecv (0xF5 :: n :: t)) :: l') -> Forall may_interleave l' ->
  Forall (fun x => maps_block c (s_mext s) (s_maddr s) n b (fst x)) ((e, ORecv (0xF5 :: n :: t)) :: l') ->
  maps_block c (s_mext s) (s_maddr s) n b e' ->
  run c ((e, ORecv (0xF5 :: n :: t)) :: l') s = Ok (s1, o1) -> (1 + mains l') * full c < n <= (2 + mains l') * full c ->
  exists s' o' pad, step c e' OMain s1 = Ok (s', o') /\
    payload (o1 ++ o') = mem_at (s_mem s) b n ++ pad /\ lenN pad = (if c_max_dlc c then (2 + mains l') * full c - n else 0) /\
    lenN (filter positive (o1 ++ o')) = (n + full c - 1) / full c /\ upl s c n n s' /\ s_busy s' = false.
Proof.
  intros c m l s o e n t l' e' b s1 o1 R RD B K J P D O L G N1 I Wr Q M M' H Hn.
  destruct (block_complete c m l s o R RD B K J P e n t l' e' b s1 o1 D O L G N1 I Wr Q M M' H Hn) as (s' & o' & pad & E & A & A2 & C & U).
  exists s', o', pad. split; [exact E|]. split; [exact A|]. split; [exact A2|]. split.
  - rewrite C. assert (Hf : 1 <= full c) by (unfold full; pose proof (wf_cto _ (proj1 R)); lia).
    set (q := full c) in *. set (k := mains l') in *. clearbody q k. clear - Hn Hf.
    apply (N.div_unique _ _ _ (n + q - 1 - (2 + k) * q)); lia.
  - split; [exact U|]. apply (upl_end c s n s' U).
Qed.

Lemma stale_witness : exists l1 l2 s1 s2 o1 o2 f s1' s2' o1' o2',
  reachable cfg_eth mem0 l1 s1 o1 /\ reachable cfg_eth mem0 l2 s2 o2 /\ s2 = set_s_in (s_in s2) s1 /\
  step cfg_eth env_yes (ORecv f) s1 = Ok (s1', o1') /\ step cfg_eth env_yes (ORecv f) s2 = Ok (s2', o2') /\
  map p_data o1' = [[0xFF; 0]] /\ map p_data o2' = [[0xFF; 0; 1]].
Proof.
  set (l1 := [ORecv [0xFF; 0]; ORecv [0xF6; 0; 0; 1; 0; 0x20; 0; 0]; ORecv [0xFD; 1]]).
  set (l2 := [ORecv [0xFF; 0]; ORecv [0xF6; 0; 0; 1; 0; 0x20; 0; 0]; ORecv [0xFD; 2]]).
  exists (map (pair env_yes) l1), (map (pair env_yes) l2), (demo_st cfg_eth env_yes l1), (demo_st cfg_eth env_yes l2),
    (demo_out cfg_eth env_yes l1), (demo_out cfg_eth env_yes l2), [0xF5]. eexists _, _, _, _.
  split; [apply eth_at; vm_compute; reflexivity|]. split; [apply eth_at; vm_compute; reflexivity|].
  split; [vm_compute; reflexivity|]. split; [vm_compute; reflexivity|]. split; [vm_compute; reflexivity|].
  split; vm_compute; reflexivity.
Qed.
