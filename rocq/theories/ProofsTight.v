(** Proofs of the theorems added after trials with wrong programs. *)
From Coq Require Import NArith ZArith List Bool Lia ZifyBool ZifyNat ZifyN.
From Verif Require Import Base Config Cfgs Codec Checksum State Queue Daq Core Spec Lists Effects Handlers HTx HInv HInv2
  HFields HResp DaqInv HSpec Steps Demo Ops ProofsSession Exec ProofsFrames SpecProt ProofsProt SpecMem ProofsMem ProofsBlock
  ProofsWrite ProofsModify.
Import ListNotations.
Open Scope N_scope.
Ltac Zify.zify_post_hook ::= Z.div_mod_to_equations.

(** ** C18: a written byte lies in a granted range *)
Definition covers (c : cfg) (e : env) (k : N) : Prop :=
  exists x a n, granted c e x a n true false /\ target c e x a <= k < target c e x a + n.

Lemma covers_write : forall c e x a n m bs k, granted c e x a n true false -> lenN bs <= n ->
  mwrite m (target c e x a) bs k <> m k -> covers c e k.
Proof.
  intros c e x a n m bs k G L H. exists x, a, n. split; [exact G|].
  destruct (N.lt_ge_cases k (target c e x a)) as [A|A]; [exfalso; apply H, mwrite_outside; lia|].
  destruct (N.lt_ge_cases k (target c e x a + lenN bs)) as [B|B]; [lia|]. exfalso. apply H, mwrite_outside. lia.
Qed.
Lemma granted_if : forall c e x a n, c_chkmem c && negb (e_access e x a n true false) = false -> granted c e x a n true false.
Proof. intros c e x a n H C. rewrite C in H. cbn in H. now apply negb_false_iff in H. Qed.
Lemma mem_range_entries : forall c e, entries c (fun k h => forall s s' o, h e s = Ok (s', o) ->
  s_mem s' = s_mem s \/ In k [0xEF; 0xEE; 0xEC] \/ forall y, s_mem s' y <> s_mem s y -> covers c e y).
Proof.
  intros c e. apply table_each; intros; try (right; left; cbn; now auto 10); try (left; crush_h; solve [fin]).
  all: crush_h; try (left; solve [fin]); right; right; intros y Y; ss_in Y;
   match goal with A : c_chkmem ?c && negb (e_access ?e ?x ?a ?n true false) = false |- _ =>
     apply (covers_write c e x a n _ _ _ (granted_if _ _ _ _ _ A)) in Y; [exact Y|rewrite lenN_take; lia] end.
Qed.
Lemma range_thm : forall c m l s o e f s' o' y, reachable c m l s o -> bytes f -> step c e (ORecv f) s = Ok (s', o') ->
  ~ is_cmd 0xEE f -> ~ is_cmd 0xEF f -> ~ is_cmd 0xEC f -> s_mem s' y <> s_mem s y ->
  exists x a n, granted c e x a n true false /\ target c e x a <= y < target c e x a + n.
Proof.
  intros c m l s o e f s' o' y R Bf H K1 K2 K3 Y. apply recv_cases in H. destruct H as [H|(k & t & h & -> & _ & _ & G & H)].
  - exfalso. apply Y. assert (Q : s_mem s' = s_mem s) by apply H. rewrite Q. reflexivity.
  - destruct (entries_cmd c _ k h (mem_range_entries c e) (frame_k _ _ Bf) G (rx c (k :: t) s) s' o' H) as [E|[E|E]].
    + exfalso. apply Y. rewrite E. reflexivity.
    + exfalso. cbn [In] in E. destruct E as [E|[E|[E|[]]]]; subst k; [apply K2|apply K1|apply K3]; reflexivity.
    + apply E. exact Y.
Qed.

(** MODIFY_BITS asks for two bytes and changes the fourth. *)
Definition two_run : list op := [ORecv [0xFF; 0]; ORecv [0xF6; 0; 0; 0; 0; 0x10; 0; 0]].
Definition env_two : env := {|
  e_getid := e_getid env_yes; e_seed := e_seed env_yes; e_unlock := e_unlock env_yes;
  e_access := fun _ a n _ _ => (0x1000 <=? a) && (a + n <=? 0x1002); e_map := e_map env_yes; e_timer := e_timer env_yes |}.
Lemma wf_two : wf_env cfg_eth env_two. Proof. pose proof (wf_yes cfg_eth wf_eth) as W. constructor; apply W. Qed.
Lemma modify_range : exists c m l s o e f s' o' y,
  reachable c m l s o /\ c_chkmem c = true /\ wf_env c e /\ bytes f /\ is_cmd 0xEC f /\ step c e (ORecv f) s = Ok (s', o') /\
  s_mem s' y <> s_mem s y /\ forall x a n p, e_access e x a n true p = true -> ~ (target c e x a <= y < target c e x a + n).
Proof.
  exists cfg_eth, mem0, (map (pair env_yes) two_run), (demo_st cfg_eth env_yes two_run), (demo_out cfg_eth env_yes two_run), env_two,
    [0xEC; 16; 0xFF; 0xFF; 0; 1]. eexists _, _. exists 0x1003.
  split; [apply eth_at; vm_compute; reflexivity|]. split; [reflexivity|]. split; [exact wf_two|]. split; [repeat constructor|]. split; [reflexivity|].
  split; [vm_compute; reflexivity|]. split; [vm_compute; discriminate|]. intros x a n p H. cbn [e_access env_two] in H. unfold target.
  change (c_mapper cfg_eth) with false. cbv iota. lia.
Qed.
