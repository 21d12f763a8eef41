(** Definitions for the examples of PropertiesSerial. *)
From Coq Require Import NArith ZArith List Bool Lia ZifyBool ZifyNat ZifyN.
From Verif Require Import Base Config Cfgs State Core Spec Demo SpecMem Sxi SpecSxi CasesSxi Serial SpecSerial.
Import ListNotations.
Open Scope N_scope.

(** The Arduino with the header of the serial transport layer: two bytes each for length and counter. *)
Definition cfg_sxi : cfg := w_len_size 2 (w_ctr_size 2 cfg_can).
Lemma wf_sxi : wf_cfg cfg_sxi. Proof. wf_cfg_tac. Qed.
Lemma sxi_at : forall l, demo_ok cfg_sxi env_yes l = true ->
  reachable cfg_sxi mem0 (map (pair env_yes) l) (demo_st cfg_sxi env_yes l) (demo_out cfg_sxi env_yes l).
Proof. intros. apply demo_at; auto using wf_sxi, wf_yes. Qed.
Lemma local_yes : key_local env_yes.
Proof.
  intros r n k k' H. cbn [e_unlock env_yes]. destruct (N.leb_spec 1 n) as [Hn|]; [|reflexivity]. cbn [andb].
  destruct (N.to_nat n) eqn:E; [lia|]. destruct k, k'; cbn [firstn] in H; congruence.
Qed.

(** A frame whose bytes arrive at time [t], a call each. *)
Definition bytes_at (t : N) (f : sframe) : list sevent := map (fun b => SPoll env_yes (at_ms t b)) (wire f).

(** CONNECT, SET_MTA to 0x1000, DOWNLOAD of 0x55 0x66; between the bytes of the last an event, and an empty call. *)
Definition dl_frames : list sframe :=
  [mkFrame 0 0 [0xFF; 0]; mkFrame 1 0 [0xF6; 0; 0; 0; 0; 0x10; 0; 0]; mkFrame 2 0 [0xF0; 2; 0x55; 0x66]].
Definition dl_events : list sevent :=
  bytes_at 500 (nth 0 dl_frames (mkFrame 0 0 [])) ++ [SOp env_yes OMain] ++ bytes_at 600 (nth 1 dl_frames (mkFrame 0 0 [])) ++
  firstn 5 (bytes_at 700 (nth 2 dl_frames (mkFrame 0 0 []))) ++ [SOp env_yes (OEvent 1 [7]); SPoll env_yes (nothing 800)] ++
  skipn 5 (bytes_at 700 (nth 2 dl_frames (mkFrame 0 0 []))).

(** An empty frame behind. *)
Definition none_frame : sframe := mkFrame 3 0 [].
Definition again_events : list sevent := dl_events ++ bytes_at 900 none_frame.

(** Memory from 0x1000 on, and the contents of what is sent. *)
Definition look (r : res) : option (list N * list (list N)) :=
  match r with Ok (s, o) => Some (map (s_mem s) [0x1000; 0x1001; 0x1002; 0x1003; 0x1004], map p_data o) | UB _ => None end.

Lemma good_b : forall fs, forallb (fun f => match f_data f with [] => true | _ => (1 <=? lenN (f_data f)) && (need cfg_sxi (nth 0 (f_data f) 0) (nth 1 (f_data f) 0) <=? lenN (f_data f)) && (nth 0 (f_data f) 0 <? 256) && (lenN (f_data f) <=? c_ctobuf cfg_sxi) end) fs = true ->
  Forall (fun f => f_data f = [] \/ good cfg_sxi (f_data f)) fs.
Proof.
  intros fs H. apply Forall_forall. intros f Hf. rewrite forallb_forall in H. specialize (H f Hf). unfold good, complete.
  destruct (f_data f); [left; reflexivity|right]. repeat (apply andb_prop in H; destruct H as [H ?]).
  rewrite N.leb_le in *. rewrite N.ltb_lt in *. auto.
Qed.
Lemma fits_b : forall n fs, forallb (fun f => (lenN (f_data f) + 4 <=? n) && forallb (fun b => b <? 256) (wire f)) fs = true -> Forall (fits n) fs.
Proof.
  intros n fs H. apply Forall_forall. intros f Hf. rewrite forallb_forall in H. specialize (H f Hf). apply andb_prop in H. destruct H as [H1 H2].
  split; [now apply N.leb_le|]. apply Forall_forall. intros b Hb. rewrite forallb_forall in H2. apply N.ltb_lt. auto.
Qed.
Lemma all_yes : forall l, forallb (fun x => match x with SPoll _ _ => true | SOp _ o => match o with ORecv _ | OInit => false | _ => true end end) l = true -> Forall around (others l).
Proof.
  induction l as [|[e p|e o] l IH]; cbn [forallb]; intro H; [constructor|auto|]. apply andb_prop in H. destruct H as [H1 H2].
  cbn [others flat_map app]. constructor; [|auto]. unfold around. cbn [snd]. destruct o; auto; discriminate.
Qed.
Lemma yes_local : forall l, envs l = repeat env_yes (length l) -> Forall key_local (envs l).
Proof. intros l ->. apply Forall_forall. intros e H. apply repeat_spec in H. subst e. exact local_yes. Qed.

Theorem empty_witness : exists s o0 buf fs l, reachable cfg_sxi mem0 [] s o0 /\ 12 <= lenN buf <= 2 ^ 16 /\
  Forall (fits (lenN buf)) fs /\ Forall (fun f => f_data f = [] \/ good cfg_sxi (f_data f)) fs /\
  quiet 0 (polls l) /\ octets (polls l) = wires fs /\ Forall around (others l) /\ Forall key_local (envs l) /\
  look (run cfg_sxi (weave 0 fs l) s) =
    Some ([0x55; 0x66; 2; 3; 4], [[0xFF; 0x15; 0x80; 8; 8; 0; 1; 1]; [0xFF]; [0xFD; 1; 7]; [0xFF]]) /\
  look (outcome (serial_run cfg_sxi l (sxi_init buf) s)) =
    Some ([0x55; 0x66; 0x55; 0x66; 4], [[0xFF; 0x15; 0x80; 8; 8; 0; 1; 1]; [0xFF]; [0xFD; 1; 7]; [0xFF]; [0xFF]]).
Proof.
  exists (demo_st cfg_sxi env_yes []), (demo_out cfg_sxi env_yes []), (repeat 0 12), (dl_frames ++ [none_frame]), again_events.
  split; [apply (sxi_at []); vm_compute; reflexivity|]. split; [vm_compute; split; congruence|].
  split; [apply fits_b; vm_compute; reflexivity|]. split; [apply good_b; vm_compute; reflexivity|].
  split; [vm_compute; repeat split; congruence|]. split; [vm_compute; reflexivity|].
  split; [apply all_yes; vm_compute; reflexivity|]. split; [apply yes_local; vm_compute; reflexivity|].
  split; vm_compute; reflexivity.
Qed.

Lemma serial_case :
  let s := demo_st cfg_sxi env_yes [] in let buf := repeat 0 12 in
  reachable cfg_sxi mem0 [] s [] /\ Forall (fits (lenN buf)) dl_frames /\ Forall (fun f => good cfg_sxi (f_data f)) dl_frames /\
  quiet 0 (polls dl_events) /\ octets (polls dl_events) = wires dl_frames /\ Forall around (others dl_events) /\
  Forall key_local (envs dl_events) /\
  map snd (weave 0 dl_frames dl_events) =
    [ORecv [0xFF; 0]; OMain; ORecv [0xF6; 0; 0; 0; 0; 0x10; 0; 0]; OEvent 1 [7]; ORecv [0xF0; 2; 0x55; 0x66]] /\
  look (outcome (serial_run cfg_sxi dl_events (sxi_init buf) s)) =
    Some ([0x55; 0x66; 2; 3; 4], [[0xFF; 0x15; 0x80; 8; 8; 0; 1; 1]; [0xFF]; [0xFD; 1; 7]; [0xFF]]).
Proof.
  cbv zeta. split; [change (@nil pkt) with (demo_out cfg_sxi env_yes []); apply (sxi_at []); vm_compute; reflexivity|].
  split; [apply fits_b; vm_compute; reflexivity|]. split.
  { assert (X : Forall (fun f => f_data f = [] \/ good cfg_sxi (f_data f)) dl_frames) by (apply good_b; vm_compute; reflexivity).
    assert (Y : Forall (fun f => f_data f <> []) dl_frames) by (repeat constructor; discriminate).
    apply Forall_forall. intros f Hf. rewrite Forall_forall in X, Y. destruct (X f Hf); [|assumption]. exfalso. exact (Y f Hf H). }
  split; [vm_compute; repeat split; congruence|]. split; [vm_compute; reflexivity|].
  split; [apply all_yes; vm_compute; reflexivity|]. split; [apply yes_local; vm_compute; reflexivity|].
  split; vm_compute; reflexivity.
Qed.
