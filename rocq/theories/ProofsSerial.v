From Coq Require Import NArith ZArith List Bool Lia ZifyBool ZifyNat ZifyN.
From Verif Require Import Base Config Codec Checksum State Queue Daq Core Spec Lists Effects Handlers HTx HInv HInv2
  HFields HResp DaqInv HSpec Steps Demo Ops ProofsSession Exec ProofsFrames SpecProt ProofsProt SpecMem ProofsRx
  Sxi SpecSxi ProofsSxi Serial SpecSerial.
Import ListNotations.
Open Scope N_scope.
Ltac Zify.zify_post_hook ::= Z.div_mod_to_equations.

(** ** Operations commute with a change of the receive buffer *)
Lemma cm_busy : forall c v b s, set_busy c v (set_s_in b s) = match set_busy c v s with Ok s' => Ok (set_s_in b s') | UB w => UB w end.
Proof.
  intros. unfold set_busy, enter, leave. destruct (c_lock c); ss; [|reflexivity].
  match goal with |- context [if ?x then UB _ else _] => destruct x end; [reflexivity|]. cbn [bind]. ss.
  repeat match goal with |- context [if ?x then _ else _] => destruct x end; reflexivity.
Qed.
Lemma cm_job : forall c b s, checksum_main c (set_s_in b s) = lift b (checksum_main c s).
Proof.
  intros. unfold checksum_main. cbv zeta. change (s_job (set_s_in b s)) with (s_job s).
  destruct (j_state (s_job s)); try reflexivity; rewrite !cm_calc; eapply cm_bindsame; intro v; try reflexivity.
  match goal with |- bind (set_busy c false ?x) _ = lift b (bind (set_busy c false ?y) _) => change x with (set_s_in b y) end.
  eapply cm_bindst; [apply cm_busy|]. intro s1. unfold send_checksum.
  match goal with |- andthen ?x _ = lift b (andthen ?y _) => replace x with (lift b y) by (symmetry; repeat cm1) end.
  apply cm_andthen. reflexivity.
Qed.
Lemma cm_main : forall c e b s, main_function c e (set_s_in b s) = lift b (main_function c e s).
Proof.
  intros. unfold main_function.
  replace (if c_sbm c then upload_block c e (set_s_in b s) else Ok (set_s_in b s, [])) with (lift b (if c_sbm c then upload_block c e s else Ok (s, [])))
    by (destruct (c_sbm c); [symmetry; apply cm_block|reflexivity]).
  apply cm_andthen. intro s1. destruct (job_on c); [apply cm_job|reflexivity].
Qed.

Lemma cm_transmit : forall c b n s, transmit c n (set_s_in b s) = lift b (transmit c n s).
Proof.
  intros c b. induction n; intro s; cbn [transmit]; [reflexivity|]. ss.
  destruct (dequeue c (d_q (s_daq s))) as [[data q]|]; cbn [bind]; [|reflexivity].
  change (upd_daq (set_d_q q) (set_s_in b s)) with (set_s_in b (upd_daq (set_d_q q) s)).
  generalize (upd_daq (set_d_q q) s). intro s1.
  assert (X : send_dto c data (set_s_in b s1) = let '(s2, o) := send_dto c data s1 in (set_s_in b s2, o)).
  { unfold send_dto. ss. reflexivity. }
  rewrite X. destruct (send_dto c data s1) as [s2 o]. cbn [bind]. rewrite IHn. destruct (transmit c n s2) as [[s3 o3]|]; reflexivity.
Qed.

Lemma cm_trigger : forall c e ev b s, trigger c e ev (set_s_in b s) = lift b (trigger c e ev s).
Proof.
  intros. unfold trigger. destruct (negb (c_daq c)); [reflexivity|]. ss. destruct (sample_event _ _ _ _ _) as [[q|]|]; cbn [bind]; try reflexivity.
  change (upd_daq (set_d_q q) (set_s_in b s)) with (set_s_in b (upd_daq (set_d_q q) s)). apply cm_transmit.
Qed.
Lemma cm_special : forall c ty code info b s, special c ty code info (set_s_in b s) = lift b (special c ty code info s).
Proof. intros. unfold special. cbv zeta. eapply cm_bindst; [apply cm_poke|]. intro. apply cm_cto. Qed.

Lemma cm_step : forall c x b s, around x -> step c (fst x) (snd x) (set_s_in b s) = lift b (step c (fst x) (snd x) s).
Proof.
  intros c [e o] b s A. cbn [fst snd]. destruct o; cbn [around snd] in A; try contradiction; cbn [step].
  - apply cm_main.
  - apply cm_trigger.
  - destruct (c_ev_api c); [apply cm_special|reflexivity].
  - destruct (c_srv_api c); [apply cm_special|reflexivity].
  - reflexivity.
  - eapply cm_bindst; [apply cm_disc|]. reflexivity.
  - reflexivity.
  - eapply cm_bindst; [apply cm_busy|]. reflexivity.
Qed.

Lemma in_same : forall s, set_s_in (s_in s) s = s.
Proof. destruct s; reflexivity. Qed.

Lemma lift_in : forall r s1 o b, r = lift b r -> r = Ok (s1, o) -> s_in s1 = b.
Proof. intros r s1 o b E ->. cbn in E. injection E as E. rewrite E. reflexivity. Qed.

Lemma step_in : forall c x s s1 o, around x -> step c (fst x) (snd x) s = Ok (s1, o) -> s_in s1 = s_in s.
Proof.
  intros c x s s1 o A E. apply (lift_in (step c (fst x) (snd x) s) s1 o); [|exact E]. rewrite <- cm_step by exact A. now rewrite in_same.
Qed.

(** A complete command at the beginning of the buffer. *)
Lemma cm_dispatch : forall c e f s b, wf_cfg c -> key_local e -> complete c f -> nth 0 f 0 < 256 ->
  takeN (lenN f) (s_in s) = f -> takeN (lenN f) b = f -> 8 <= lenN (s_in s) -> 8 <= lenN b ->
  dispatch c e (set_s_in b s) = lift b (dispatch c e s).
Proof.
  intros c e f s b W K (L1 & Hn) H0 T1 T2 B1 B2. pose proof (wf_cto _ W) as Wc.
  destruct f as [|k t]; [cbn in L1; lia|]. set (f := k :: t) in *.
  assert (Lf : lenN f <= lenN (s_in s)) by (rewrite <- T1, lenN_take; lia).
  assert (Lb : lenN f <= lenN b) by (rewrite <- T2 at 1; rewrite lenN_take; lia).
  assert (E : takeN (lenN f) b = takeN (lenN f) (s_in s)) by congruence.
  assert (E' : takeN (lenN f) (s_in s) = takeN (lenN f) f) by (rewrite T1; symmetry; apply take_all; lia).
  assert (G0 : gb (s_in s) 0 = k) by (rewrite (gb_take _ _ _ 0 E') by lia; reflexivity).
  assert (G1 : need c k (gb (s_in s) 1) <= lenN f).
  { destruct t as [|x t]; [|rewrite (gb_take _ _ _ 1 E') by (unfold f; rewrite !lenN_cons; lia); exact Hn].
    cbn [nth f] in Hn. change (lenN f) with 1 in *. rewrite need_one; [lia|lia|exact Hn]. }
  unfold dispatch. change (s_in (set_s_in b s)) with b.
  rewrite (gb_take _ _ _ 0 E) by lia. rewrite G0.
  destruct (N.ltb_spec (lenN b) 8); [lia|]. destruct (N.ltb_spec (lenN (s_in s)) 8); [lia|].
  change (s_conn (set_s_in b s)) with (s_conn s). change (s_busy (set_s_in b s)) with (s_busy s).
  assert (C : count_ctos c (set_s_in b s) = set_s_in b (count_ctos c s)) by (unfold count_ctos; destruct (c_stats c); reflexivity).
  assert (Ci : s_in (count_ctos c s) = s_in s) by (unfold count_ctos; destruct (c_stats c); reflexivity).
  cbv zeta. rewrite C.
  assert (X : forall h, entry c k = Some h -> h e (set_s_in b (count_ctos c s)) = lift b (h e (count_ctos c s))).
  { intros h Hh. pose proof (rx_entries c e W K (255 - k) h Hh (count_ctos c s) b (lenN f)) as Q.
    replace (255 - (255 - k)) with k in Q by (cbn [nth f] in H0; lia). rewrite Ci in Q.
    apply Q; [lia|exact E|lia|exact G1]. }
  destruct (s_conn s).
  - destruct (s_busy s).
    + unfold busy_response. destruct (c_stats c); match goal with |- _ = lift b (err ?cc ?kk ?y) => match goal with |- ?l = _ => change l with (err cc kk (set_s_in b y)) end end;
        unfold err; rewrite cm_send8; reflexivity.
    + fold (entry c k). destruct (entry c k) as [h|] eqn:Eh; [|reflexivity]. apply X. reflexivity.
  - destruct (N.eqb_spec k 0xFF) as [->|_]; [|reflexivity]. apply X. tbl.
Qed.

(** ** The run *)
Lemma run_lift : forall c e o l s s1 x (A : res), step c e o s = Ok (s1, x) ->
  (exists b2, A = lift b2 (run c l s1)) ->
  exists b2, ('(s2, o2) <- A ;; Ok (s2, x ++ o2)) = lift b2 (run c ((e, o) :: l) s).
Proof.
  intros c e o l s s1 x A E [b2 ->]. exists b2. cbn [run]. rewrite E. unfold andthen. cbn [bind].
  destruct (run c l s1) as [[s2 o2]|]; reflexivity.
Qed.

Lemma outcome_out : forall (A : out (rcv * st * list pkt)) x,
  outcome ('(r2, s2, o2) <- A ;; Ok (r2, s2, x ++ o2)) = ('(s2, o2) <- outcome A ;; Ok (s2, x ++ o2)).
Proof. intros [[[r s] o]|] x; reflexivity. Qed.

Lemma bind_nil : forall A : res, ('(s2, o2) <- A ;; Ok (s2, [] ++ o2)) = A.
Proof. intros [[s o]|]; reflexivity. Qed.

(** No byte arrives. *)
Lemma serial_idle : forall c n d f w l last r b s k fs ds, mid n d f w last r -> quiet last (polls l) -> octets (polls l) = [] ->
  Forall around (others l) ->
  exists b2, outcome (serial_run c l r (set_s_in b s)) = lift b2 (run c (weave_as k fs ds l) s).
Proof.
  intros c n d f w. induction l as [|x l IH]; intros last r b s k fs ds M Q O A. { exists b. reflexivity. }
  destruct x as [e p|e o].
  - cbn [polls flat_map app] in Q, O. fold (polls l) in *. cbn [octets flat_map] in O. fold (octets (polls l)) in O.
    destruct (p_byte p) eqn:P; [discriminate|]. cbn [app] in O. cbn [quiet] in Q. rewrite P in Q. destruct Q as [Q0 Q].
    cbn [serial_run weave_as]. unfold sxi_main. rewrite P. cbn [bind]. rewrite (quiet_check _ _ _ _ _ _ _ M Q0). cbn [bind dispatch_all].
    rewrite outcome_out, bind_nil. exact (IH last r b s k fs ds M Q O A).
  - cbn [others flat_map app] in A. pose proof (Forall_inv A) as A1. pose proof (Forall_inv_tail A) as A2. cbn [serial_run weave_as].
    pose proof (cm_step c (e, o) b s A1) as CS; cbn [fst snd] in CS; rewrite CS. destruct (step c e o s) as [[s1 x]|w1] eqn:E; cbn [lift bind].
    + rewrite outcome_out. eapply run_lift; eauto.
    + exists b. cbn [run]. rewrite E. reflexivity.
Qed.

Lemma serial_go : forall c n l last r d b f w v fs more s prev, wf_cfg c ->
  12 <= n <= 2 ^ 16 -> Forall (fits n) (f :: fs) -> lenN d + 4 = n -> v <> [] -> wire f = w ++ v -> mid n d f w last r ->
  Forall (fun g => f_data g = [] \/ good c (f_data g)) (f :: fs) ->
  (f_data f = [] -> prev <> []) -> (prev <> [] -> good c prev /\ takeN (lenN prev) d = prev /\ takeN (lenN prev) (s_in s) = prev) ->
  quiet last (polls l) -> octets (polls l) ++ more = v ++ wires fs -> Forall around (others l) -> Forall key_local (envs l) ->
  lenN (s_in s) = c_ctobuf c ->
  exists b2, outcome (serial_run c l r (set_s_in b s)) = lift b2 (run c (weave_as (lenN w) (f :: fs) (map f_data (repeated prev (f :: fs))) l) s).
Proof.
  intros c n l last r d b f w v fs more s prev Wf. pose proof (wf_cto _ Wf) as Wc. revert last r d b f w v fs more s prev.
  induction l as [|x l IH]; intros last r d b f w v fs more s prev N16 F D V W M G P0 P Q O A K S. { exists b. reflexivity. }
  destruct x as [e p|e o].
  - cbn [polls flat_map app] in Q, O. fold (polls l) in *. cbn [octets flat_map] in O. fold (octets (polls l)) in O.
    cbn [others flat_map app] in A. fold (others l) in A. cbn [envs map] in K. fold (envs l) in K. pose proof (Forall_inv K) as K0. pose proof (Forall_inv_tail K) as K1.
    destruct Q as [Q0 Q]. cbn [serial_run weave_as repeated map]. unfold sxi_main. destruct (p_byte p) as [y|].
    + destruct v as [|v0 v]; [contradiction|]. cbn [app] in O. injection O as <- O.
      assert (Ff : fits n f) by (inversion F; auto). assert (Ffs : Forall (fits n) fs) by (inversion F; auto).
      assert (Lw : lenN (wire f) = lenN w + 1 + lenN v) by (rewrite W, lenN_app, lenN_cons; lia).
      destruct (feed_frame n d f w y v last (p_time p) r ltac:(lia) Ff D W M) as [r1 X].
      destruct v as [|v1 v].
      * destruct X as [X M1]. rewrite X. cbn [bind]. rewrite (quiet_check _ _ _ _ _ _ _ M1 Q0). cbn [bind dispatch_all snd].
        destruct (N.eqb_spec (lenN w + 1) (lenN (wire f))) as [_|NE]; [|change (lenN []) with 0 in Lw; lia].
        set (d1 := f_data f ++ dropN (lenN (f_data f)) d) in *.
        assert (D1 : lenN d1 + 4 = n) by (unfold d1; rewrite lenN_app, lenN_drop; destruct Ff; lia).
        set (g := match f_data f with [] => prev | _ => f_data f end).
        assert (Gg : (match f_data f with [] => prev | n0 :: l0 => n0 :: l0 end) = g) by (unfold g; destruct (f_data f); reflexivity).
        rewrite Gg. cbn [f_data].
        assert (GG : good c g /\ g <> [] /\ takeN (lenN g) d1 = g).
        { unfold g, d1. destruct (f_data f) as [|h0 h] eqn:Eh.
          - destruct (P (P0 eq_refl)) as (P1 & P2 & _). split; [exact P1|]. split; [auto|]. cbn [app]. change (lenN []) with 0. exact P2.
          - split; [|split; [discriminate|apply take_app]]. pose proof (Forall_inv G) as G0. cbv beta in G0. rewrite Eh in G0. destruct G0; [discriminate|assumption]. }
        destruct GG as ((G1 & G2 & G3) & G4 & G5).
        assert (Lg : lenN g <> 0) by (destruct g; [contradiction|rewrite lenN_cons; lia]).
        change (set_s_in d1 (set_s_in b s)) with (set_s_in d1 (set_s_in (splice (s_in s) 0 g) s)).
        set (s0 := set_s_in (splice (s_in s) 0 g) s).
        assert (T0 : takeN (lenN g) (s_in s0) = g) by (unfold s0; ss; apply take_splice0).
        assert (L0 : lenN (s_in s0) = c_ctobuf c) by (unfold s0; ss; rewrite lenN_splice by lia; lia).
        assert (R0 : step c e (ORecv g) s = dispatch c e s0).
        { cbn [step]. unfold receive. destruct (N.eqb_spec (lenN g) 0); [lia|]. destruct (N.ltb_spec (c_ctobuf c) (lenN g)); [lia|]. reflexivity. }
        assert (C8 : 8 <= c_ctobuf c) by (unfold c_ctobuf; lia).
        rewrite (cm_dispatch c e g s0 d1 Wf K0 G1 G2 T0 G5 ltac:(lia) ltac:(lia)).
        assert (I0 : forall s1 o1, dispatch c e s0 = Ok (s1, o1) -> s_in s1 = s_in s0).
        { intros s1 o1 E1. apply (lift_in (dispatch c e s0) s1 o1); [|exact E1].
          rewrite <- (cm_dispatch c e g s0 (s_in s0) Wf K0 G1 G2 T0 T0) by lia. now rewrite in_same. }
        destruct (dispatch c e s0) as [[s1 o1]|w1] eqn:E1; unfold andthen; cbn [lift bind].
        2:{ exists b. cbn [run]. rewrite R0. reflexivity. }
        specialize (I0 s1 o1 eq_refl). rewrite app_nil_r. rewrite outcome_out.
        apply run_lift with (s1 := s1); auto. 
        assert (GF : Forall (fun g => f_data g = [] \/ good c (f_data g)) fs) by (inversion G; auto).
        cbn [app] in O. destruct fs as [|h fs].
        -- cbn in O. apply app_eq_nil in O. destruct O as [O _].
           exact (serial_idle c n d1 f [] l _ r1 d1 s1 0 [] [] M1 Q O A).
        -- apply (IH (p_time p) r1 d1 d1 h [] (wire h) fs more s1 g); auto.
           ++ unfold wire. discriminate.
           ++ apply mid_any with f. exact M1.
           ++ intros _. rewrite I0. repeat split; auto; apply G1.
           ++ now rewrite I0.
      * destruct X as [X M1]. rewrite X. cbn [bind]. rewrite (quiet_check _ _ _ _ _ _ _ M1 Q0). cbn [bind dispatch_all].
        rewrite outcome_out, bind_nil. destruct (N.eqb_spec (lenN w + 1) (lenN (wire f))) as [NE|_]; [rewrite lenN_cons in Lw; lia|].
        replace (lenN w + 1) with (lenN (w ++ [y])) by (rewrite lenN_app; reflexivity).
        apply (IH (p_time p) r1 d b f (w ++ [y]) (v1 :: v) fs more s prev); auto.
        -- discriminate.
        -- rewrite <- app_assoc. exact W.
    + cbn [app] in O. cbn [bind]. rewrite (quiet_check _ _ _ _ _ _ _ M Q0). cbn [bind dispatch_all]. rewrite outcome_out, bind_nil.
      apply (IH last r d b f w v fs more s prev); auto.
  - cbn [others flat_map app] in A. pose proof (Forall_inv A) as A1. pose proof (Forall_inv_tail A) as A2. cbn [serial_run weave_as].
    cbn [envs map] in K. fold (envs l) in K. pose proof (Forall_inv K) as K0. pose proof (Forall_inv_tail K) as K1.
    pose proof (cm_step c (e, o) b s A1) as CS; cbn [fst snd] in CS; rewrite CS. pose proof (step_in c (e, o) s) as SI. cbn [fst snd] in SI.
    destruct (step c e o s) as [[s1 x]|w1] eqn:E; cbn [lift bind].
    + specialize (SI s1 x A1 eq_refl). rewrite outcome_out. eapply run_lift; eauto. apply (IH last r d b f w v fs more s1 prev); auto.
      * rewrite SI. exact P.
      * now rewrite SI.
    + exists b. cbn [run]. rewrite E. reflexivity.
Qed.

Lemma weave_same : forall l n fs, weave n fs l = weave_as n fs (map f_data fs) l.
Proof.
  induction l as [|[e p|e o] l IH]; intros n fs; cbn [weave weave_as]; [reflexivity| |now rewrite IH].
  destruct (p_byte p); [|apply IH]. destruct fs as [|f fs]; cbn [map]; [apply IH|]. destruct (_ =? _); [now rewrite IH|apply IH].
Qed.
Lemma repeated_same : forall fs prev, Forall (fun f => f_data f <> []) fs -> map f_data (repeated prev fs) = map f_data fs.
Proof.
  induction fs as [|f fs IH]; intros prev F; [reflexivity|]. inversion F as [|? ? F1 F2]; subst. cbn [repeated map f_data].
  destruct (f_data f); [congruence|]. now rewrite IH.
Qed.

Theorem repeat_thm : forall c m l0 s o0 buf fs l more, reachable c m l0 s o0 -> 12 <= lenN buf <= 2 ^ 16 ->
  Forall (fits (lenN buf)) fs -> Forall (fun f => f_data f = [] \/ good c (f_data f)) fs -> (forall f t, fs = f :: t -> f_data f <> []) ->
  quiet 0 (polls l) -> octets (polls l) ++ more = wires fs -> Forall around (others l) -> Forall key_local (envs l) ->
  same_but_rx (run c (weave_as 0 fs (map f_data (repeated [] fs)) l) s) (outcome (serial_run c l (sxi_init buf) s)).
Proof.
  intros c m l0 s o0 buf fs l more R B F G H0 Q O A K.
  pose proof (proj1 R) as W. pose proof (reach_inv _ _ _ _ _ R) as I.
  assert (Le : lenN (s_in s) = c_ctobuf c) by apply (b_in _ _ (i_b _ _ I)).
  assert (X : exists b2, outcome (serial_run c l (sxi_init buf) s) = lift b2 (run c (weave_as 0 fs (map f_data (repeated [] fs)) l) s)).
  { replace (serial_run c l (sxi_init buf) s) with (serial_run c l (sxi_init buf) (set_s_in (s_in s) s)) by now rewrite in_same. destruct fs as [|f fs].
    - cbn in O. apply app_eq_nil in O. destruct O as [O _].
      apply (serial_idle c (lenN buf) (dropN 4 buf) (mkFrame 0 0 []) [] l 0); auto. apply mid_init. lia.
    - change (weave_as 0) with (weave_as (lenN (@nil N))). apply (serial_go c (lenN buf) l 0 _ (dropN 4 buf) (s_in s) f [] (wire f) fs more s []); auto.
      + rewrite lenN_drop. lia.
      + unfold wire. discriminate.
      + apply mid_init. lia.
      + intro E. exfalso. exact (H0 f fs eq_refl E).
      + congruence. }
  destruct X as [b2 ->]. apply lift_sbr.
Qed.

Theorem serial_thm : forall c m l0 s o0 buf fs l more, reachable c m l0 s o0 -> 12 <= lenN buf <= 2 ^ 16 ->
  Forall (fits (lenN buf)) fs -> Forall (fun f => good c (f_data f)) fs ->
  quiet 0 (polls l) -> octets (polls l) ++ more = wires fs -> Forall around (others l) -> Forall key_local (envs l) ->
  same_but_rx (run c (weave 0 fs l) s) (outcome (serial_run c l (sxi_init buf) s)).
Proof.
  intros c m l0 s o0 buf fs l more R B F G Q O A K.
  assert (NE : Forall (fun f => f_data f <> []) fs).
  { eapply Forall_impl; [|exact G]. intros f ((L & _) & _) E. rewrite E in L. cbn in L. lia. }
  rewrite weave_same. rewrite <- (repeated_same fs [] NE). eapply repeat_thm; eauto.
  - eapply Forall_impl; [|exact G]. auto.
  - intros f t ->. now inversion NE.
Qed.
