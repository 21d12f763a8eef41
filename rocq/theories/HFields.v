(** Which handler may change which part of the state. *)
From Coq Require Import NArith ZArith List Bool Lia ZifyBool ZifyNat ZifyN.
From Verif Require Import Base Config Codec Checksum State Queue Daq Core Spec Lists Effects Handlers HTx HInv DaqInv.
Import ListNotations.
Open Scope N_scope.

Definition prot_cmds : list N := [0xFE; 0xF8; 0xF7].
Definition daq_cmds : list N := [0xFE; 0xF7; 0xE2; 0xE1; 0xE0; 0xDE; 0xDD; 0xD6; 0xD5; 0xD4; 0xD3; 0xC7].
Definition pgm_cmds : list N := [0xD2; 0xCF].
Definition busy_cmds : list N := [0xF5; 0xF4; 0xF3].
Definition mta_cmds : list N := [0xFA; 0xF6; 0xF5; 0xF4; 0xF0; 0xEF; 0xEE; 0xED; 0xD7; 0xD0].
Definition mbm_cmds : list N := [0xF0; 0xEF].

Ltac pick := first [left; splitif; repeat split; reflexivity | left; repeat split; assumption
                   | right; cbn; tauto].

Lemma same_entries : forall c e, entries c (fun k h => forall s s' o, h e s = Ok (s', o) ->
   ((s_prot s' = s_prot s /\ s_seed s' = s_seed s) \/ In k prot_cmds) /\
   (s_daq s' = s_daq s \/ In k daq_cmds) /\
   (s_pgm s' = s_pgm s \/ In k pgm_cmds) /\
   ((s_busy s' = s_busy s /\ s_sact s' = s_sact s /\ s_srem s' = s_srem s /\ s_job s' = s_job s) \/ In k busy_cmds) /\
   ((s_mext s' = s_mext s /\ s_maddr s' = s_maddr s) \/ In k mta_cmds) /\
   ((s_mact s' = s_mact s /\ s_mrem s' = s_mrem s) \/ In k mbm_cmds)).
Proof.
  intros c e. apply table_each; intros; crush_o; split_st; ss;
   repeat match goal with |- _ /\ _ => split | |- _ \/ _ => pick end.
Qed.

