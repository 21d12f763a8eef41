(** Tools for the concrete DAQ cases: the configuration that a computed run asks for. *)
From Coq Require Import NArith List Bool Lia.
From Verif Require Import Base Config Cfgs Codec Checksum State Queue Daq Core Spec Demo Lists SpecMem SpecDaq HSpec ProofsWrite ProofsDaqC.
Import ListNotations.
Open Scope N_scope.

Definition acceptedb (o : list pkt) : bool :=
  match o with [p] => negb (p_dto p) && match p_data p with b :: _ => b =? 0xFF | [] => false end | _ => false end.
Lemma acceptedb_ok : forall o, acceptedb o = true -> accepted o.
Proof.
  intros [|p [|q o]] H; try discriminate. cbn [acceptedb] in H. apply andb_true_iff in H. destruct H as (H1 & H2).
  exists p. split; [reflexivity|]. split; [now apply negb_true_iff|]. destruct (p_data p) as [|b t]; [discriminate|]. apply N.eqb_eq in H2. now subst.
Qed.

Fixpoint all_entries (t : tree) (l o k : N) (n : nat) : bool :=
  match n with O => true | S m => match entry_at t l o k with Some _ => all_entries t l o (k + 1) m | None => false end end.
Lemma all_entries_ok : forall t l o n k, all_entries t l o k n = true -> forall i, i < N.of_nat n -> exists x, entry_at t l o (k + i) = Some x.
Proof.
  induction n; intros k H i Hi; [lia|]. cbn [all_entries] in H. destruct (entry_at t l o k) as [x|] eqn:E; [|discriminate].
  destruct (N.eq_dec i 0) as [->|Hn]; [rewrite N.add_0_r; eauto|]. destruct (IHn (k + 1) H (i - 1)) as (y & Y); [lia|].
  replace (k + i) with (k + 1 + (i - 1)) by lia. eauto.
Qed.

Definition want (c : cfg) (s : st) (t : tree) (f : list N) : option tree :=
  let d := s_daq s in
  match f with
  | [] => None
  | k :: r =>
    if k =? 0xD6 then Some [] else
    if k =? 0xD5 then match r with
      | _ :: a :: b :: _ => if (256 <=? c_max_ent c) || (field c [a; b] <? 256) then Some (t ++ repeat [] (N.to_nat (field c [a; b]))) else None
      | _ => None end else
    if k =? 0xD4 then match r with
      | _ :: a :: b :: n :: _ => match getN t (field c [a; b]) with Some [] => Some (put_odts t (field c [a; b]) (repeat [] (N.to_nat n))) | _ => None end
      | _ => None end else
    if k =? 0xD3 then match r with
      | _ :: a :: b :: o :: n :: _ => match odt_at t (field c [a; b]) o with Some [] => Some (put_entries t (field c [a; b]) o (repeat (0, 0) (N.to_nat n))) | _ => None end
      | _ => None end else
    if k =? 0xE1 then match r with
      | _ :: n :: _ :: a0 :: a1 :: a2 :: a3 :: _ =>
          match entry_at t (d_plist d) (d_podt d) (d_pent d) with
          | Some _ => Some (put_entry t (d_plist d) (d_podt d) (d_pent d) (field c [a0; a1; a2; a3], n)) | None => None end
      | _ => None end else
    if k =? 0xC7 then match r with
      | n :: b => match elements c (N.to_nat n) b with
          | Some xs => if all_entries t (d_plist d) (d_podt d) (d_pent d) (N.to_nat n) then Some (put_all t (d_plist d) (d_podt d) (d_pent d) xs) else None
          | None => None end
      | _ => None end else None
  end.
Lemma want_ok : forall c s t f t', want c s t f = Some t' -> requests c s t f t'.
Proof.
  intros c s t [|k r] t' H; [discriminate|]. cbn [want] in H.
  destruct (N.eqb_spec k 0xD6); [subst; injection H as <-; reflexivity|].
  destruct (N.eqb_spec k 0xD5).
  { subst. destruct r as [|? [|a [|b ?]]]; try discriminate. destruct (_ || _) eqn:E; [|discriminate]. injection H as <-. split; [|reflexivity].
    intro Hm. apply orb_true_iff in E. destruct E as [E|E]; [apply N.leb_le in E; lia|now apply N.ltb_lt in E]. }
  destruct (N.eqb_spec k 0xD4).
  { subst. destruct r as [|? [|a [|b [|nn ?]]]]; try discriminate. destruct (getN t _) as [[|]|] eqn:E; try discriminate. injection H as <-. split; [exact E|reflexivity]. }
  destruct (N.eqb_spec k 0xD3).
  { subst. destruct r as [|? [|a [|b [|oo [|nn ?]]]]]; try discriminate. destruct (odt_at t _ oo) as [[|]|] eqn:E; try discriminate. injection H as <-. split; [exact E|reflexivity]. }
  destruct (N.eqb_spec k 0xE1).
  { subst. destruct r as [|? [|nn [|? [|a0 [|a1 [|a2 [|a3 ?]]]]]]]; try discriminate. destruct (entry_at _ _ _ _) eqn:E; [|discriminate]. injection H as <-.
    split; [eauto|reflexivity]. }
  destruct (N.eqb_spec k 0xC7); [|discriminate].
  subst. destruct r as [|nn b]; [discriminate|]. destruct (elements _ _ _) as [xs|] eqn:E; [|discriminate]. destruct (all_entries _ _ _ _ _) eqn:A; [|discriminate]. injection H as <-.
  exists xs. split; [exact E|]. split; [|reflexivity]. intros i Hi. apply (all_entries_ok _ _ _ _ _ A). lia.
Qed.

(** Runs of operations, with the configuration they ask for. *)
Fixpoint track (c : cfg) (e : env) (l : list op) (s : st) (t : tree) : option (st * tree) :=
  match l with
  | [] => Some (s, t)
  | x :: l =>
    match step c e x s with
    | UB _ => None
    | Ok (s1, o) =>
      match x with
      | ORecv [] | ODisconnect | OInit => None
      | ORecv (k :: f) =>
          if k =? 0xFE then None else
          if existsb (N.eqb k) [0xD6; 0xD5; 0xD4; 0xD3; 0xE1; 0xC7] then
            if acceptedb o then match want c s t (k :: f) with Some t1 => track c e l s1 t1 | None => None end else None
          else if (k =? 0xF7) && negb (acceptedb o) then None else track c e l s1 t
      | _ => track c e l s1 t
      end
    end
  end.
Lemma existsb_no : forall k l, existsb (N.eqb k) l = false -> ~ In k l.
Proof. intros k l H X. assert (E : existsb (N.eqb k) l = true) by (apply existsb_exists; exists k; split; [exact X|apply N.eqb_refl]). congruence. Qed.
Lemma track_ok : forall c e l s t s' t', track c e l s t = Some (s', t') -> builds c s t (map (pair e) l) s' t'.
Proof.
  induction l as [|x l IH]; intros s t s' t' H; cbn [track map] in *.
  - injection H as <- <-. constructor.
  - destruct (step c e x s) as [(s1 & o)|] eqn:E; [|discriminate].
    destruct x as [[|k f]| | | | | | | | |]; try discriminate; try (eapply b_leave; [exact E|exact I|auto]; fail).
    destruct (N.eqb_spec k 0xFE); [discriminate|]. destruct (existsb _ _) eqn:X.
    + destruct (acceptedb o) eqn:A; [|discriminate]. destruct (want c s t (k :: f)) as [t1|] eqn:Wt; [|discriminate].
      eapply b_request; [exact E|now apply acceptedb_ok|exact (want_ok _ _ _ _ _ Wt)|auto].
    + destruct ((k =? 0xF7) && negb (acceptedb o)) eqn:Y; [discriminate|]. eapply b_leave; [exact E| |auto].
      split; [assumption|]. split; [|intro Z; exfalso; exact (existsb_no _ _ X Z)].
      intros ->. cbn [N.eqb Pos.eqb andb] in Y. apply negb_false_iff in Y. now apply acceptedb_ok.
Qed.
Definition demo_tree (c : cfg) (e : env) (l : list op) : option tree :=
  match boot c mem0 with Ok s => option_map snd (track c e l s []) | UB _ => None end.
Lemma track_run : forall c e l s t s' t', track c e l s t = Some (s', t') -> exists o, run c (map (pair e) l) s = Ok (s', o).
Proof. intros. eapply builds_run. eapply track_ok. eassumption. Qed.
Lemma demo_rep : forall c e l t, wf_cfg c -> dlc_ok c -> c_daq c = true -> c_max_ent c < 65536 -> wf_env c e -> forallb (fun o => wf_opb c o) l = true ->
  demo_tree c e l = Some t -> represents c (demo_st c e l) t.
Proof.
  intros c e l t W D Hd Sm We Hl H. unfold demo_tree in H. destruct (boot c mem0) as [s0|] eqn:B; [|discriminate].
  destruct (track c e l s0 []) as [(s & t')|] eqn:T; [|discriminate]. cbn in H. injection H as ->.
  pose proof (track_ok _ _ _ _ _ _ _ T) as Bu. destruct (builds_run _ _ _ _ _ _ Bu) as (o & Ru).
  unfold demo_st, demo. rewrite B. cbn [bind]. rewrite Ru.
  refine (proj1 (builds_reach c mem0 [] s0 [] [] _ _ _ D Sm _ (boot_empty c mem0 s0 Hd B) (wf_run_b c e l We Hl) Bu)).
  split; [exact W|]. split; [exact wf_mem0|]. split; [constructor|]. exists s0. split; [exact B|reflexivity].
Qed.

(** The Ethernet configuration without resource protection. *)
Definition cfg_daq : cfg := w_prot_daq false cfg_eth.
Lemma wf_daq : wf_cfg cfg_daq. Proof. wf_cfg_tac. Qed.
Lemma daq_at : forall l, demo_ok cfg_daq env_yes l = true ->
  reachable cfg_daq mem0 (map (pair env_yes) l) (demo_st cfg_daq env_yes l) (demo_out cfg_daq env_yes l).
Proof. intros. apply demo_at; auto using wf_daq, wf_yes. Qed.
Lemma daq_rep : forall l t, forallb (fun o => wf_opb cfg_daq o) l = true -> demo_tree cfg_daq env_yes l = Some t -> represents cfg_daq (demo_st cfg_daq env_yes l) t.
Proof. intros. apply demo_rep; auto using wf_daq, wf_yes; try exact eq_refl. discriminate. Qed.

(** Two lists: the first with ODTs of two and one entries, the second with one
    ODT of one entry. *)
Definition ex_alloc : list op := [ORecv [0xFF; 0]; ORecv [0xD6]; ORecv [0xD5; 0; 2; 0]; ORecv [0xD4; 0; 0; 0; 2]; ORecv [0xD4; 0; 1; 0; 1];
  ORecv [0xD3; 0; 0; 0; 0; 2]; ORecv [0xD3; 0; 0; 0; 1; 1]; ORecv [0xD3; 0; 1; 0; 0; 1]].
Definition ex_write : list op := ex_alloc ++ [ORecv [0xE2; 0; 0; 0; 0; 0]; ORecv [0xE1; 0xFF; 4; 0; 0; 0x10; 0; 0]; ORecv [0xE1; 0xFF; 2; 0; 0x20; 0x10; 0; 0];
  ORecv [0xE2; 0; 0; 0; 1; 0]; ORecv [0xE1; 0xFF; 1; 0; 0x30; 0x10; 0; 0]; ORecv [0xE2; 0; 1; 0; 0; 0]; ORecv [0xE1; 0xFF; 3; 0; 0x40; 0x10; 0; 0]].
Definition ex_tree : tree := [[[(0x1000, 4); (0x1020, 2)]; [(0x1030, 1)]]; [[(0x1040, 3)]]].
Definition daq_openb (c : cfg) (s : st) : bool :=
  c_daq c && match s_pgm s with PgmActive => false | _ => true end && negb (c_protect c && (N.land (s_prot s) 4 =? 4)).
Lemma daq_open_b : forall c s, daq_openb c s = true -> daq_open c s.
Proof.
  intros c s H. unfold daq_openb in H. apply andb_true_iff in H. destruct H as (H & H3). apply andb_true_iff in H. destruct H as (H1 & H2).
  split; [exact H1|]. split; [intro P; unfold programming in P; rewrite P in H2; discriminate|]. intros (P & Q). rewrite P, Q in H3. discriminate.
Qed.
(** Example states: reachable, answering commands, and representing [t]. *)
Ltac daq_case := cbv zeta; split; [apply daq_at; vm_compute; reflexivity|]; split; [vm_compute; repeat split; congruence|]; split; [discriminate|];
  split; [apply daq_open_b; vm_compute; reflexivity|]; split; [apply daq_rep; vm_compute; reflexivity|].
Definition sampled_okb (c : cfg) (ts : list N) (es : list (N * N)) : bool :=
  forallb (fun x => (1 <=? snd x) && (fst x + snd x <=? aspace c)) es &&
  (1 + lenN ts + lenN (concat (map (fun x => repeat 0 (N.to_nat (snd x))) es)) <=? N.min (c_max_dto c) 255).
Lemma sampled_ok_b : forall c ts es, sampled_okb c ts es = true -> sampled_ok c ts es.
Proof.
  intros c ts es H. apply andb_true_iff in H. destruct H as (H1 & H2). split; [|now apply N.leb_le].
  apply Forall_forall. intros x Hx. pose proof (proj1 (forallb_forall _ _) H1 x Hx) as Y. apply andb_true_iff in Y. destruct Y as (Y1 & Y2).
  apply N.leb_le in Y1, Y2. split; assumption.
Qed.
Definition sampleableb (c : cfg) (ts : list N) (os : list (list (N * N))) : bool :=
  match os with [] => true | es :: r => sampled_okb c ts es && forallb (sampled_okb c []) r end.
Lemma sampleable_b : forall c ts os, sampleableb c ts os = true -> sampleable c ts os.
Proof.
  intros c ts [|es r] H i x G; [unfold getN in G; destruct (N.to_nat i); discriminate|]. apply andb_true_iff in H. destruct H as (H1 & H2).
  destruct (N.eqb_spec i 0) as [->|Ni]; [injection G as <-; now apply sampled_ok_b|].
  apply sampled_ok_b. apply (proj1 (forallb_forall _ _) H2). unfold getN in G. destruct (N.to_nat i) as [|n] eqn:E; [lia|]. eapply nth_error_In; exact G.
Qed.
Fixpoint samplesb (c : cfg) (s : st) (t : tree) (es : list (env * N)) : option (list (list N)) :=
  match es with
  | [] => Some []
  | (e, ev) :: es =>
    match getN (d_lfe (s_daq s)) ev with
    | Some l => match getN t l, samplesb c s t es with
        | Some os, Some fs => if (ev <? 256) && sampleableb c (time_stamp c e s) os then Some (dtos (s_mem s) (time_stamp c e s) (odts_before t l) os ++ fs) else None
        | _, _ => None end
    | None => None
    end
  end.
Lemma samples_b : forall c s t es fs, Forall (wf_env c) (map fst es) -> samplesb c s t es = Some fs -> samples c s t es fs.
Proof.
  induction es as [|(e & ev) es IH]; intros fs W H; cbn [samplesb] in H.
  - injection H as <-. constructor.
  - cbn [map fst] in W. inversion W; subst. destruct (getN _ ev) as [l|] eqn:A; [|discriminate]. destruct (getN t l) as [os|] eqn:G; [|discriminate].
    destruct (samplesb c s t es) as [f2|] eqn:E; [|discriminate]. destruct (_ && _) eqn:B; [|discriminate]. injection H as <-.
    apply andb_true_iff in B. destruct B as (B1 & B2). econstructor; eauto; [now apply N.ltb_lt|now apply sampleable_b].
Qed.
