(** A run with a busy slave and an event for the examples of C113. *)
From Coq Require Import NArith ZArith List Bool Lia ZifyBool ZifyNat ZifyN.
From Verif Require Import Base Config Codec State Core Spec Demo Steps Stats SpecStats ProofsStats.
Import ListNotations.
Open Scope N_scope.

(** CONNECT; the application marks the slave busy; GET_STATUS; an event; GET_STATUS. *)
Definition ex_stats : list op := [ORecv [0xFF; 0]; OSetBusy true; ORecv [0xFD]; OEvent 7 [1]; OSetBusy false; ORecv [0xFD]].

(** Runs with any number of frames. *)
Lemma any_frames : forall n, exists l s o, reachable cfg_eth mem0 l s o /\ no_init l /\ lenN o = n.
Proof.
  intro n. pose proof (eth_at [] ltac:(vm_compute; reflexivity)) as R.
  destruct (events_run cfg_eth env_yes (N.to_nat n) _ _ _ _ R (wf_yes _ wf_eth) eq_refl) as (s' & o' & R' & L).
  cbn [map app] in R'. do 3 eexists. split; [exact R'|]. split.
  - apply Forall_forall. intros x H. apply repeat_spec in H. subst x. discriminate.
  - assert (Z : demo_out cfg_eth env_yes [] = []) by (vm_compute; reflexivity). rewrite Z. cbn [app]. unfold lenN. rewrite L. apply N2Nat.id.
Qed.
