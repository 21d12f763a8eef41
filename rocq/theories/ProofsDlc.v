(** Frames of full length (C64, C67). *)
From Coq Require Import NArith ZArith List Bool Lia ZifyBool ZifyNat ZifyN.
From Verif Require Import Base Config Codec Checksum State Queue Daq Core Spec Lists Effects Handlers HTx HInv Steps Demo Ops ProofsSession Exec ProofsMem SpecMisc ProofsMisc.
Import ListNotations.
Open Scope N_scope.

Lemma send8_exact : forall c len bs s, dlc_ok c -> 8 <= c_max_cto c -> lenN (s_out s) = c_max_cto c -> 1 <= len -> len <= 8 -> lenN bs = 8 ->
  exists s' p, send8 c len bs s = Ok (s', [p]) /\ p_data p = (if c_max_dlc c then bs else takeN len bs).
Proof.
  intros c len bs s D M L L1 L2 B. unfold send8. set (n := if c_max_dlc c then c_max_cto c else len).
  assert (N8 : 1 <= n <= 8). { unfold n. destruct (c_max_dlc c) eqn:E; [rewrite (D E); lia|lia]. }
  replace (n <=? 8) with true by lia. unfold poke. assert (LT : lenN (takeN n bs) = n) by (rewrite lenN_take; lia). rewrite LT.
  replace (lenN (s_out s) <? 0 + n) with false by lia. cbn [bind]. unfold send_cto. ss. rewrite lenN_splice by lia.
  replace (lenN (s_out s) <? n) with false by lia. eexists _, _. split; [reflexivity|]. cbn [p_data].
  unfold splice. rewrite take_0. cbn [app]. rewrite take_app_le by lia. rewrite take_take. replace (N.min n n) with n by lia.
  unfold n. destruct (c_max_dlc c) eqn:E; [|reflexivity]. rewrite (D E). apply take_all. lia.
Qed.

Lemma send8_stale : forall c len bs s, c_max_dlc c = true -> 8 < c_max_cto c -> lenN (s_out s) = c_max_cto c ->
  send8 c len bs s = Ok (bump c s, [mkPkt false (mk_hdr c (c_max_cto c) (s_ctr s)) (s_out s)]).
Proof.
  intros c len bs s D M L. unfold send8. rewrite D. replace (c_max_cto c <=? 8) with false by lia. cbn [bind]. unfold send_cto. rewrite L, N.ltb_irrefl.
  rewrite (take_all _ (c_max_cto c) (s_out s)) by lia. reflexivity.
Qed.

Lemma stale_answers : forall c m l s o e k t, reachable c m l s o -> c_max_dlc c = true -> 8 < c_max_cto c -> ready s ->
  In k [0xFF; 0xFD; 0xFC] -> lenN (k :: t) <= c_ctobuf c ->
  exists s' o', step c e (ORecv (k :: t)) s = Ok (s', o') /\ sends o' (s_out s) /\ s_out s' = s_out s.
Proof.
  intros c m l s o e k t R D M RD K L.
  assert (X : forall s1 len bs, lenN (s_out s1) = c_max_cto c -> s_out s1 = s_out s -> exists s' o', send8 c len bs s1 = Ok (s', o') /\ sends o' (s_out s) /\ s_out s' = s_out s).
  { intros s1 len bs L1 E1. rewrite send8_stale by assumption. eexists _, _. split; [reflexivity|]. split; [|unfold bump; ss; exact E1].
    eexists. split; [reflexivity|]. split; [reflexivity|]. cbn [p_data]. exact E1. }
  pose proof (rx_out c m l s o (k :: t) R) as Lo.
  assert (Eo : s_out (rx c (k :: t) s) = s_out s) by (unfold rx; ss; reflexivity).
  destruct K as [<-|[<-|[<-|[]]]].
  - rewrite (exec_val c m l s o e 0xFF t (h_connect c) R RD L) by tbl. unfold h_connect. apply X; ss; assumption.
  - rewrite (exec_val c m l s o e 0xFD t (h_status c) R RD L) by tbl. unfold h_status. apply X; ss; assumption.
  - rewrite (exec_val c m l s o e 0xFC t (h_synch c) R RD L) by tbl. unfold h_synch, err. apply X; ss; assumption.
Qed.

Lemma boot_out : forall c m s, boot c m = Ok s -> s_out s = repeat 0 (N.to_nat (c_max_cto c)).
Proof.
  intros c m s B. unfold boot, xcp_init in B. apply bind_Ok in B. destruct B as (s1 & B1 & B2). injection B2 as <-.
  assert (E : s_out s1 = repeat 0 (N.to_nat (c_max_cto c))).
  { unfold daq_init_st in B1. destruct (c_daq c).
    - apply bind_Ok in B1. destruct B1 as (d & _ & B1). injection B1 as <-. unfold default_prot, power_on. ss. reflexivity.
    - injection B1 as <-. unfold default_prot, power_on. ss. reflexivity. }
  destruct (job_on c); ss; exact E.
Qed.

Lemma zero_connect : forall c m s e t, wf_cfg c -> wf_mem m -> boot c m = Ok s -> c_max_dlc c = true -> 8 < c_max_cto c -> lenN (0xFF :: t) <= c_ctobuf c ->
  exists s' o', step c e (ORecv (0xFF :: t)) s = Ok (s', o') /\ sends o' (repeat 0 (N.to_nat (c_max_cto c))).
Proof.
  intros c m s e t W WM B D M L. pose proof (boot_inv c m s W WM B) as I. pose proof (boot_conn c m s B) as C. cbn [step].
  rewrite receive_val by auto. rewrite C. change (0xFF =? 0xFF) with true. cbv iota. unfold h_connect.
  assert (Eo : s_out (rx c (0xFF :: t) s) = repeat 0 (N.to_nat (c_max_cto c))) by (unfold rx; ss; apply (boot_out c m s B)).
  rewrite send8_stale; [|exact D|exact M|ss; rewrite Eo, lenN_repeat; lia]. eexists _, _. split; [reflexivity|].
  eexists. split; [reflexivity|]. split; [reflexivity|]. cbn [p_data]. ss. exact Eo.
Qed.

(** ** Padding of event packets *)
Lemma drop_all : forall A n (l : list A), lenN l <= n -> dropN n l = [].
Proof. intros A n l H. unfold dropN. apply skipn_all2. unfold lenN in H. lia. Qed.

Lemma special_exact : forall c ty code info s, wf_cfg c -> lenN (s_out s) = c_max_cto c -> code < 256 -> lenN info <= c_max_cto c - 2 -> lenN info < 256 -> c_max_dlc c = true ->
  special c ty code info s =
  Ok (bump c (set_s_out ([ty; code] ++ info ++ dropN (2 + lenN info) (s_out s)) s),
      [mkPkt false (mk_hdr c (c_max_cto c) (s_ctr s)) ([ty; code] ++ info ++ dropN (2 + lenN info) (s_out s))]).
Proof.
  intros c ty code info s W Lo Hc Hi H8 D. pose proof (wf_cto _ W). unfold special, u8. rewrite !N.mod_small by lia. rewrite N.min_r by lia. rewrite (take_all _ (lenN info) info) by lia.
  assert (L2 : lenN ([ty; code] ++ info) = 2 + lenN info) by (rewrite lenN_app; reflexivity).
  unfold poke. rewrite L2, Lo. replace (c_max_cto c <? 0 + (2 + lenN info)) with false by lia. cbn [bind]. rewrite D. unfold send_cto. ss. rewrite lenN_splice by lia. rewrite Lo, N.ltb_irrefl.
  assert (E : splice (s_out s) 0 ([ty; code] ++ info) = [ty; code] ++ info ++ dropN (2 + lenN info) (s_out s)).
  { unfold splice. rewrite take_0, L2, N.add_0_l. cbn [app]. rewrite <- ?app_assoc. reflexivity. }
  rewrite E. rewrite take_all; [reflexivity|]. rewrite !lenN_app, lenN_drop. change (lenN [ty; code]) with 2. lia.
Qed.

Lemma event_leak : forall c m l s o e a info1 b info2, reachable c m l s o -> c_ev_api c = true -> c_max_dlc c = true ->
  a < 256 -> b < 256 -> lenN info1 = c_max_cto c - 2 -> lenN info2 <= c_max_cto c - 2 -> c_max_cto c <= 256 ->
  exists s' p1 p2, run c [(e, OEvent a info1); (e, OEvent b info2)] s = Ok (s', [p1; p2]) /\
    p_data p1 = [0xFD; a] ++ info1 /\ p_data p2 = [0xFD; b] ++ info2 ++ dropN (lenN info2) info1.
Proof.
  intros c m l s o e a info1 b info2 R A D Ha Hb L1 L2 M. assert (W : wf_cfg c) by apply R. pose proof (wf_cto _ W).
  assert (Lo : lenN (s_out s) = c_max_cto c) by apply (rx_out c m l s o [] R).
  cbn [run step]. rewrite A. rewrite special_exact by (auto; lia). unfold andthen at 1. cbn [bind].
  rewrite (drop_all _ (2 + lenN info1) (s_out s)) by lia. rewrite app_nil_r.
  rewrite special_exact; [|exact W| |exact Hb|exact L2|lia|exact D].
  2:{ unfold bump. ss. rewrite lenN_app. change (lenN [253; a]) with 2. lia. }
  unfold andthen. cbn [bind app]. eexists _, _, _. split; [reflexivity|]. split; [reflexivity|]. cbn [p_data]. unfold bump. ss.
  do 2 f_equal. f_equal. rewrite (drop_cons _ (2 + lenN info2)), drop_cons by lia. f_equal. lia.
Qed.
