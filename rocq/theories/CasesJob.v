(** States for the examples of PropertiesJob. *)
From Coq Require Import NArith List Bool Lia.
From Verif Require Import Base Config Cfgs State SpecMem SpecCks Conc DemoConc Job SpecJob.
Import ListNotations.
Open Scope N_scope.

(** Sums of bytes, chunks of four bytes; the memory has the content 0, 1, 2, ...; the
    address of an earlier job is [a]. *)
Definition cfg_sum : cfg := w_chunk 4 (w_cks ADD14 cfg_eth).
Definition resting (a : N) : jm := mkJm JIdle a 0 7 false None (fun x => x mod 256) [] false.
Definition running (a n : N) : jm := mkJm JInit a n 7 true None (fun x => x mod 256) [] false.

Lemma sum_wf : forall a, wf_job cfg_sum (resting a).
Proof. intro a. split; [vm_compute; split; [discriminate|reflexivity]|]. intro x. apply N.mod_lt. discriminate. Qed.
Lemma sum_wf2 : forall a n, wf_job cfg_sum (running a n).
Proof. intros a n. split; [vm_compute; split; [discriminate|reflexivity]|]. intro x. apply N.mod_lt. discriminate. Qed.
Lemma sum_computable : computable cfg_sum 0x20 10.
Proof. repeat split; vm_compute; intuition discriminate. Qed.
