(** Start, stop and mode commands (C39, C41, C42, C44, C45, C51, C52). *)
From Coq Require Import NArith ZArith List Bool Lia ZifyBool ZifyNat ZifyN.
From Verif Require Import Base Config Codec Checksum State Queue Daq Core Spec Lists Effects Handlers HTx HInv HInv2
  HFields HResp DaqInv HSpec Steps Demo Ops ProofsSession Exec ProofsFrames SpecProt ProofsProt SpecMem ProofsMem ProofsWrite SpecDaq ProofsDaqA ProofsDaqB ProofsDaqC ProofsDaqD ProofsDaqE ProofsDaqF.
Import ListNotations.
Open Scope N_scope.
Ltac Zify.zify_post_hook ::= Z.div_mod_to_equations.

Lemma land3 : forall x, N.land x 3 = 0 -> N.land x 2 = 0 /\ N.land x 1 = 0.
Proof. intros x H. change 3 with (N.lor 2 1) in H. rewrite N.land_lor_distr_r in H. now apply N.lor_eq_0_iff in H. Qed.

Section Cmd.
Variables (c : cfg) (m : mem) (l : list (env * op)) (s : st) (o : list pkt) (e : env).
Variables (R : reachable c m l s o) (RD : ready s) (D : dlc_ok c) (Op : daq_open c s).
Let W := proj1 R.
Let Hd := proj1 Op.
Let I := i_d _ _ (reach_inv _ _ _ _ _ R).

(** ** START_STOP_DAQ_LIST *)
Lemma start_list_thm : forall t mode a b tl os, let f := 0xDE :: mode :: a :: b :: tl in let l' := field c [a; b] in
  c_max_ent c < 65536 -> represents c s t -> getN t l' = Some os -> bytes f -> lenN f <= c_ctobuf c -> mode <= 2 ->
  answers c e f s [0xFF; odts_before t l' mod 256; 0; 0; 0; 0; 0; 0]
    (with_daq (if mode =? 2 then set_d_mode (N.lor (d_mode (s_daq s)) 0x40) (s_daq s) else s_daq s) s).
Proof.
  intros t mode a b tl os f l' Sm (fo & fe & Rp) G Wf Hl Hm.
  inversion Wf as [|? ? _ W1]; subst. inversion W1 as [|? ? _ W2]; subst. inversion W2 as [|? ? Xa W3]; subst. inversion W3 as [|? ? Xb _]; subst.
  unfold answers, f. assert (En : entry c 0xDE = Some (h_start_stop_list c)) by tbl. rewrite (exec_val c m l s o e 0xDE _ _ R RD Hl En).
  unfold h_start_stop_list. rewrite (open_rx c s Op), rx_in, gw_eq. change (gb (rxbuf s _) 1) with mode. change (gb (rxbuf s _) 2) with a. change (gb (rxbuf s _) (2 + 1)) with b.
  fold l'. fold f. pose proof (getN_Some_lt _ _ _ _ G) as Ll.
  assert (Ml : l' mod we c = l').
  { apply we_mod; [exact W|]. pose proof (r_count _ _ _ _ _ Rp). destruct (d_layout _ _ I) as (L1 & L2 & _). rewrite (d_len _ _ I) in L2. lia. }
  rewrite Ml. change (s_daq (rx c f s)) with (s_daq s). rewrite (r_lists _ _ _ _ _ Rp). destruct (N.leb_spec (lenN t) l'); [lia|].
  unfold andthen. cbn [bind]. destruct (N.ltb_spec 2 mode); [lia|].
  set (s1 := if mode =? 2 then _ else _).
  assert (E1 : first_pid c (s_daq s1) l' = Ok (Some (odts_before t l'))).
  { assert (X : forall d, same_tables (s_daq s) d -> dinv c d -> first_pid c d l' = Ok (Some (odts_before t l'))).
    { intros d St Di. assert (Rd : represents_by fo fe c d t) by (eapply rep_tables; eauto). rewrite (first_pid_rep c fo fe d t l' W Sm Di Rd). now destruct (N.ltb_spec l' (lenN t)); [|lia]. }
    unfold s1. destruct (mode =? 2); apply X; try (repeat split; fail); [|exact I].
    ss. eapply dinv_same; eauto; [repeat split|]. ss. apply lor_lt8; [exact (d_modeb _ _ I)|exact eq_refl]. }
  rewrite E1. cbn [bind]. unfold u8. change (2 ^ 8) with 256.
  match goal with |- exists s' o', (match ?x with _ => _ end) = _ /\ _ => idtac | _ => idtac end.
  destruct (send8_ans c 8 [0xFF; odts_before t l' mod 256; 0; 0; 0; 0; 0; 0] s1
    (with_daq (if mode =? 2 then set_d_mode (N.lor (d_mode (s_daq s)) 0x40) (s_daq s) else s_daq s) s) W D) as (s' & o' & X1 & X2 & X3); try reflexivity; try lia.
  - unfold s1. destruct (mode =? 2); exact (rx_out c m l s o f R).
  - unfold s1. destruct (mode =? 2); [apply ss_daq|]. unfold with_daq. destruct (ss_rx c f s) as (?&?&?&?&?&?&?&?&?&?&?&?&?&?&?). unfold same_session. ss. repeat split; auto.
  - exists s', o'. rewrite X1. cbn [bind]. split; [reflexivity|]. split; auto.
Qed.
(** ... of a list that does not exist: two responses. *)
Lemma start_list_two : forall mode a b tl, let f := 0xDE :: mode :: a :: b :: tl in let l' := field c [a; b] in
  c_max_ent c < 65536 -> bytes f -> lenN f <= c_ctobuf c -> fits c l' -> d_lcnt (s_daq s) <= l' -> mode <= 2 ->
  exists s' o1 o2, step c e (ORecv f) s = Ok (s', o1 ++ o2) /\ sends o1 (padded c [0xFE; 0x22]) /\ sends o2 (padded c [0xFF; 0; 0; 0; 0; 0; 0; 0]) /\
    same_session (with_daq (if mode =? 2 then set_d_mode (N.lor (d_mode (s_daq s)) 0x40) (s_daq s) else s_daq s) s) s'.
Proof.
  intros mode a b tl f l' Sm Wf Hl Fl Hg Hm.
  inversion Wf as [|? ? _ W1]; subst. inversion W1 as [|? ? _ W2]; subst. inversion W2 as [|? ? Xa W3]; subst. inversion W3 as [|? ? Xb _]; subst.
  unfold f. assert (En : entry c 0xDE = Some (h_start_stop_list c)) by tbl. rewrite (exec_val c m l s o e 0xDE _ _ R RD Hl En).
  unfold h_start_stop_list. rewrite (open_rx c s Op), rx_in, gw_eq. change (gb (rxbuf s _) 1) with mode. change (gb (rxbuf s _) 2) with a. change (gb (rxbuf s _) (2 + 1)) with b.
  fold l'. fold f. rewrite mod_we_small by (auto; now apply field2). change (s_daq (rx c f s)) with (s_daq s). destruct (N.leb_spec (d_lcnt (s_daq s)) l'); [|lia].
  destruct (err_ans c 0x22 (rx c f s) s W D (rx_out c m l s o f R)) as (s1 & o1 & X1 & X2 & X3); [lia|apply ss_rx|].
  pose proof X1 as Y1. unfold err in Y1. destruct (send8_frame c 2 [0xFE; u8 0x22; 0; 0; 0; 0; 0; 0] (rx c f s) W D (rx_out c m l s o f R)) as (ob & o1' & Lo & E & P); try reflexivity; try lia.
  rewrite E in Y1. injection Y1 as <- <-.
  unfold andthen. rewrite X1. cbn [bind]. destruct (N.ltb_spec 2 mode); [lia|].
  set (s1 := bump c (set_s_out ob (rx c f s))) in *. set (s2 := if mode =? 2 then _ else _).
  assert (E2 : first_pid c (s_daq s2) l' = Ok None).
  { unfold first_pid. rewrite narrow by exact Sm. assert (Q : d_lcnt (s_daq s2) = d_lcnt (s_daq s)) by (unfold s2, s1; destruct (mode =? 2); reflexivity). rewrite Q.
    destruct (N.leb_spec (d_lcnt (s_daq s)) l'); [reflexivity|lia]. }
  rewrite E2. cbn [bind].
  destruct (send8_ans c 8 [0xFF; u8 0; 0; 0; 0; 0; 0; 0] s2 s2 W D) as (s' & o' & Z1 & Z2 & Z3); try reflexivity; try lia.
  - unfold s2, s1. destruct (mode =? 2); ss; exact Lo.
  - apply ss_refl.
  - rewrite Z1. cbn [bind]. eexists. do 2 eexists. split; [reflexivity|]. split; [exact X2|]. split; [exact Z2|].
    eapply ss_trans; [|exact Z3]. unfold s2, with_daq. destruct X3 as (V1 & V2 & V3 & V4 & V5 & V6 & V7 & V8 & V9 & V10 & V11 & V12 & V13 & V14 & V15).
    destruct (mode =? 2); unfold same_session; ss; repeat split; congruence.
Qed.

(** ** START_STOP_SYNCH *)
Lemma synch_thm : forall mode tl, let f := 0xDD :: mode :: tl in lenN f <= c_ctobuf c -> mode <= 2 ->
  exists d, answers c e f s [0xFF] (with_daq d s) /\ same_tables (s_daq s) d /\ d_lfe d = d_lfe (s_daq s) /\ d_q d = d_q (s_daq s) /\
    d_plist d = d_plist (s_daq s) /\ d_podt d = d_podt (s_daq s) /\ d_pent d = d_pent (s_daq s) /\
    d_run d = (if mode =? 1 then true else if mode =? 0 then false else d_run (s_daq s)).
Proof.
  intros mode tl f Hl Hm. unfold answers, f. assert (En : entry c 0xDD = Some (h_start_stop_synch c)) by tbl.
  rewrite (exec_val c m l s o e 0xDD _ _ R RD Hl En). unfold h_start_stop_synch. rewrite (open_rx c s Op), rx_in. change (gb (rxbuf s _) 1) with mode.
  fold f. assert (P : forall d, exists s' o', pos c (upd_daq (fun _ => d) (rx c f s)) = Ok (s', o') /\ sends o' (padded c [0xFF]) /\ same_session (with_daq d s) s').
  { intro d. apply pos_ans; auto; [exact (rx_out c m l s o f R)|apply ss_daq]. }
  assert (Q : mode = 0 \/ mode = 1 \/ mode = 2) by lia.
  destruct Q as [->|[->| ->]]; cbn [N.eqb Pos.eqb].
  - exists (set_d_run false (start_stop false (s_daq s))). split; [apply P|]. destruct (start_stop_same false (s_daq s)) as (A & B & C & _ & E & F & G & _). ss. repeat split; auto; apply A.
  - exists (set_d_run true (start_stop true (s_daq s))). split; [apply P|]. destruct (start_stop_same true (s_daq s)) as (A & B & C & _ & E & F & G & _). ss. repeat split; auto; apply A.
  - exists (start_stop false (s_daq s)). split; [apply P|]. destruct (start_stop_same false (s_daq s)) as (A & B & C & X & E & F & G & _). ss. repeat split; auto; apply A.
Qed.

(** ** SET_DAQ_LIST_MODE *)
Lemma set_mode_exec : forall mode a b v w pre tl, let f := 0xE0 :: mode :: a :: b :: v :: w :: pre :: tl in
  bytes f -> lenN f <= c_ctobuf c -> ~ measuring s -> fits c (field c [a; b]) ->
  step c e (ORecv f) s = (if N.land mode 2 =? 2 then err c 0x21 (rx c f s) else if N.land mode 1 =? 1 then err c 0x21 (rx c f s)
    else if 1 <? pre then err c 0x22 (rx c f s) else
      d <- add_event (field c [a; b]) (field c [v; w]) (s_daq s) ;; pos c (set_s_daq (set_d_mode (apply_mode (d_mode d) mode) d) (rx c f s))).
Proof.
  intros mode a b v w pre tl f Wf Hl M Fl.
  inversion Wf as [|? ? _ W1]; subst. inversion W1 as [|? ? _ W2]; subst. inversion W2 as [|? ? Xa W3]; subst. inversion W3 as [|? ? Xb W4]; subst.
  unfold f. assert (En : entry c 0xE0 = Some (h_set_daq_list_mode c)) by tbl. rewrite (exec_val c m l s o e 0xE0 _ _ R RD Hl En).
  unfold h_set_daq_list_mode. rewrite (stopped_rx c s Op) by exact M. rewrite rx_in, !gw_eq. change (gb (rxbuf s _) 1) with mode. change (gb (rxbuf s _) 2) with a. change (gb (rxbuf s _) (2 + 1)) with b.
  change (gb (rxbuf s _) 4) with v. change (gb (rxbuf s _) (4 + 1)) with w. change (gb (rxbuf s _) 6) with pre.
  rewrite mod_we_small by (auto; now apply field2). reflexivity.
Qed.
Lemma mode_bit4 : forall old x, N.testbit (apply_mode old x) 4 = N.testbit x 4.
Proof.
  intros old x. unfold apply_mode. cbn [fold_left].
  assert (K : forall acc f, N.testbit f 4 = false -> N.testbit (255 - f) 4 = true -> N.testbit (set_reset acc x f) 4 = N.testbit acc 4).
  { intros acc f Hf Hg. unfold set_reset. destruct (_ =? _); [rewrite N.lor_spec, Hf|rewrite N.land_spec, Hg]; [apply orb_false_r|apply andb_true_r]. }
  rewrite !K by reflexivity. unfold set_reset. rewrite bit4. destruct (N.testbit x 4) eqn:E; [rewrite N.lor_spec; apply orb_true_r|rewrite N.land_spec; apply andb_false_r].
Qed.
Lemma set_mode_thm : forall mode a b v w pre tl, let f := 0xE0 :: mode :: a :: b :: v :: w :: pre :: tl in
  bytes f -> lenN f <= c_ctobuf c -> ~ measuring s -> fits c (field c [a; b]) ->
  N.land mode 3 = 0 -> pre <= 1 -> field c [v; w] < c_nevents c ->
  exists d, answers c e f s [0xFF] (with_daq d s) /\
    d = set_d_mode (d_mode d) (set_d_lfe (put (field c [v; w]) (field c [a; b] mod 256) (d_lfe (s_daq s))) (s_daq s)) /\
    N.testbit (d_mode d) 4 = N.testbit mode 4.
Proof.
  intros mode a b v w pre tl f Wf Hl M Fl Hm Hp Hv. pose proof (set_mode_exec mode a b v w pre tl Wf Hl M Fl) as Ec. fold f in Ec.
  pose proof (land3 mode Hm) as B1.
  destruct B1 as (B1 & B2). rewrite B1, B2 in Ec. cbn [N.eqb] in Ec. destruct (N.ltb_spec 1 pre); [lia|].
  unfold add_event in Ec. rewrite (d_lfelen _ _ I) in Ec. destruct (N.ltb_spec (field c [v; w]) (c_nevents c)); [|lia]. cbn [bind] in Ec.
  eexists. split; [unfold answers; rewrite Ec; apply pos_ans; auto; [exact (rx_out c m l s o f R)|apply ss_daq]|].
  ss. split; [|apply mode_bit4]. rewrite put_upd by (rewrite (d_lfelen _ _ I); exact Hv). reflexivity.
Qed.
Lemma set_mode_oob : forall mode a b v w pre tl, let f := 0xE0 :: mode :: a :: b :: v :: w :: pre :: tl in
  bytes f -> lenN f <= c_ctobuf c -> ~ measuring s -> fits c (field c [a; b]) ->
  N.land mode 3 = 0 -> pre <= 1 -> c_nevents c <= field c [v; w] -> step c e (ORecv f) s = UB OobEvent.
Proof.
  intros mode a b v w pre tl f Wf Hl M Fl Hm Hp Hv. pose proof (set_mode_exec mode a b v w pre tl Wf Hl M Fl) as Ec. fold f in Ec.
  pose proof (land3 mode Hm) as B1.
  destruct B1 as (B1 & B2). rewrite B1, B2 in Ec. cbn [N.eqb] in Ec. destruct (N.ltb_spec 1 pre); [lia|].
  unfold add_event in Ec. rewrite (d_lfelen _ _ I) in Ec. destruct (N.ltb_spec (field c [v; w]) (c_nevents c)); [lia|]. exact Ec.
Qed.
Lemma prescaler_thm : forall mode a b v w pre tl, let f := 0xE0 :: mode :: a :: b :: v :: w :: pre :: tl in
  bytes f -> lenN f <= c_ctobuf c -> ~ measuring s -> fits c (field c [a; b]) ->
  1 < pre -> refuses c e f s (if N.land mode 3 =? 0 then 0x22 else 0x21).
Proof.
  intros mode a b v w pre tl f Wf Hl M Fl Hp. pose proof (set_mode_exec mode a b v w pre tl Wf Hl M Fl) as Ec. fold f in Ec.
  assert (B : N.land mode 3 = N.lor (N.land mode 2) (N.land mode 1)) by (rewrite <- N.land_lor_distr_r; reflexivity).
  assert (B1 : N.land mode 1 = 0 \/ N.land mode 1 = 1) by (change 1 with (N.ones 1); rewrite (N.land_ones mode 1); change (N.ones 1) with 1; pose proof (N.mod_lt mode (2 ^ 1)); change (2 ^ 1) with 2 in *; lia).
  assert (B2 : N.land mode 2 = 0 \/ N.land mode 2 = 2).
  { destruct (N.testbit mode 1) eqn:T; [right|left]; apply N.bits_inj; intro n; rewrite N.land_spec; (destruct (N.eq_dec n 1) as [->|N1]; [now rewrite T|]);
      change 2 with (2 ^ 1); rewrite N.pow2_bits_false by auto; rewrite andb_false_r; [symmetry|]; auto using N.bits_0. }
  assert (X : forall k, k < 256 -> exists s' o', err c k (rx c f s) = Ok (s', o') /\ sends o' (padded c [0xFE; k]) /\ same_session s s').
  { intros k Hk. apply err_ans; auto; [exact (rx_out c m l s o f R)|apply ss_rx]. }
  unfold refuses, answers. rewrite Ec, B. destruct (N.ltb_spec 1 pre); [|lia]. destruct B1 as [->| ->], B2 as [->| ->]; cbn; apply X; lia.
Qed.
End Cmd.

(** ** C44: while DAQ runs *)
Lemma frozen_thm : forall c m l s o e k f s' o', reachable c m l s o -> measuring s -> bytes (k :: f) ->
  step c e (ORecv (k :: f)) s = Ok (s', o') -> ~ In k [0xFE; 0xF7; 0xDE; 0xDD; 0xD6; 0xD5; 0xD4; 0xD3] -> s_daq s' = s_daq s.
Proof.
  intros c m l s o e k f s' o' R M Wf H Nk. pose proof (reach_daq _ _ _ _ _ R M) as Hd. cbn [step] in H. apply receive_Ok in H.
  destruct H as [(? & _)|(k0 & f0 & E & _ & H)]; [discriminate|]. injection E as <- <-.
  assert (Hk : k < 256) by (inversion Wf; auto).
  destruct H as [(_ & _ & H)|[(_ & h & Hh & H)|(_ & _ & -> & _)]].
  - unfold busy_response in H. unfold_h. invs; repeat (leaf; subst); destruct (c_stats c); reflexivity.
  - assert (M' : d_run (s_daq (count_ctos c (set_s_in (splice (s_in s) 0 (k :: f)) s))) = true) by (unfold count_ctos; destruct (c_stats c); exact M).
    destruct (entries_cmd _ _ _ _ (daq_frozen_entries c e) Hk Hh _ _ _ Hd M' H) as [T|T]; [|contradiction].
    rewrite T. unfold count_ctos. destruct (c_stats c); reflexivity.
  - unfold count_ctos. destruct (c_stats c); reflexivity.
Qed.
Lemma active_thm : forall c m l s o e k f, reachable c m l s o -> ready s -> dlc_ok c -> measuring s -> lenN (k :: f) <= c_ctobuf c ->
  In k [0xE2; 0xE1; 0xE0] \/ (k = 0xC7 /\ c_opt c 0xC7 = true /\ exists n tl, f = n :: tl /\ n * 8 + 2 <= c_max_cto c) -> refuses c e (k :: f) s 0x11.
Proof.
  intros c m l s o e k f R RD D M Hl Hk. pose proof (reach_daq _ _ _ _ _ R M) as Hd. pose proof (proj1 R) as W.
  assert (X : exists s' o', send_result c 0x11 (rx c (k :: f) s) = Ok (s', o') /\ sends o' (padded c [0xFE; 0x11]) /\ same_session s s').
  { apply res_err_ans; auto; [exact (rx_out c m l s o (k :: f) R)|lia|apply ss_rx]. }
  unfold refuses, answers. destruct Hk as [[<-|[<-|[<-|[]]]]|(-> & Ho & n & tl & -> & Hn)].
  - assert (En : entry c 0xE2 = Some (h_set_daq_ptr c)) by tbl. rewrite (exec_val c m l s o e 0xE2 _ _ R RD Hl En). unfold h_set_daq_ptr. rewrite daq_stopped_yes; [exact X|exact Hd|exact M].
  - assert (En : entry c 0xE1 = Some (h_write_daq c)) by tbl. rewrite (exec_val c m l s o e 0xE1 _ _ R RD Hl En). unfold h_write_daq. rewrite daq_stopped_yes; [exact X|exact Hd|exact M].
  - assert (En : entry c 0xE0 = Some (h_set_daq_list_mode c)) by tbl. rewrite (exec_val c m l s o e 0xE0 _ _ R RD Hl En). unfold h_set_daq_list_mode. rewrite daq_stopped_yes; [exact X|exact Hd|exact M].
  - assert (En : entry c 0xC7 = Some (h_write_daq_multiple c)) by tbl. rewrite (exec_val c m l s o e 0xC7 _ _ R RD Hl En). unfold h_write_daq_multiple. rewrite rx_in. change (gb (rxbuf s _) 1) with n. destruct (N.ltb_spec (c_max_cto c) (n * 8 + 2)); [lia|]. rewrite daq_stopped_yes; [exact X|exact Hd|exact M].
Qed.

(** ** C51: the clock of a locked slave *)
Lemma clock_locked : forall c m l s o e f, reachable c m l s o -> ready s -> dlc_ok c -> c_daq c = true -> c_opt c 0xDC = true ->
  ~ programming s -> locked c 4 s -> lenN (0xDC :: f) <= c_ctobuf c -> refuses c e (0xDC :: f) s 0x25.
Proof.
  intros c m l s o e f R RD D Hd Ho P Lk Hl. pose proof (proj1 R) as W. unfold refuses, answers.
  assert (En : entry c 0xDC = Some (h_daq_clock c)) by tbl. rewrite (exec_val c m l s o e 0xDC _ _ R RD Hl En). unfold h_daq_clock.
  rewrite pgm_idle_no by exact P. rewrite unlocked_yes by exact Lk. apply res_err_ans; auto; [exact (rx_out c m l s o _ R)|lia|apply ss_rx].
Qed.
