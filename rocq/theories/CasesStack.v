(** Sessions with the reference slave behind TCP and the serial line. *)
From Coq Require Import NArith ZArith List Bool Lia ZifyBool ZifyNat ZifyN.
From Verif Require Import Base Config State Core Spec SpecProt SpecMem SpecDaq SpecE2e SpecInfo Demo DemoDaq Eth SpecSxi SpecEth Net Tcp SpecTcp ProofsTcp CasesTcp CasesSxi Sxi Serial SpecSerial CasesSerial SpecRef CasesRef SpecStack.
Import ListNotations.
Open Scope N_scope.

(** What the two peers of CasesTcp ask, and the replies. *)
Definition ex_asks : list (N * list req) := [(1, [QConnect 0; QSeed 4; QUnlock [0x42]]); (2, [QStatus])].
Definition ex_gets : list (N * reply) :=
  [(1, Response [0xFF; 0x15; 0x80; 64; 64; 0; 1; 1]); (1, Response [0xFF; 4; 4; 0x11; 0x22; 0x33]); (1, Response [0xFF; 25]); (2, Response [0xFF; 0; 25; 0; 0; 0])].
Lemma ex_talks : exists a os, talks cfg_eth always 0 (power_up cfg_eth mem0) ex_asks os a /\ os = ex_gets.
Proof.
  eexists. eexists. split; unfold ex_asks.
  - eapply tk_cons; [cbn [timed]; unfold always; fr f_connect; fr f_seed; fr f_unlock; apply fr_nil|].
    eapply tk_cons; [cbn [timed]; unfold always; fr f_status; apply fr_nil|]. apply tk_nil.
  - vm_compute. reflexivity.
Qed.
Lemma ex_finished : Forall2 (finished 68 (c_ctobuf cfg_eth)) [one; two] [conn1; conn2].
Proof.
  assert (C1 : carries 68 (c_ctobuf cfg_eth) one one_cs).
  { split; [repeat constructor; vm_compute; congruence|]. split; [repeat constructor; discriminate|]. split; [reflexivity|apply whole_ok; reflexivity]. }
  assert (C2 : carries 68 (c_ctobuf cfg_eth) two two_cs).
  { split; [repeat constructor; vm_compute; congruence|]. split; [repeat constructor; discriminate|]. split; [reflexivity|apply whole_ok; reflexivity]. }
  constructor; [exists one_cs; split; [exact C1|reflexivity]|constructor; [exists two_cs; split; [exact C2|reflexivity]|constructor]].
Qed.
Lemma ex_carried : Forall2 (asks cfg_eth) [one; two] ex_asks.
Proof. repeat constructor. Qed.
Lemma net0_boots : boot cfg_eth mem0 = Ok (t_st net0).
Proof. destruct (eth_at [] eq_refl) as (_ & _ & _ & s0 & B & H). cbn [map run] in H. injection H as H. rewrite B. f_equal. exact H. Qed.

(** CONNECT, SET_MTA, DOWNLOAD byte by byte; the application runs between the bytes. *)
Definition sl_events : list sevent :=
  bytes_at 500 (nth 0 dl_frames (mkFrame 0 0 [])) ++ [SOp env_yes OMain] ++ bytes_at 600 (nth 1 dl_frames (mkFrame 0 0 [])) ++
  firstn 5 (bytes_at 700 (nth 2 dl_frames (mkFrame 0 0 []))) ++ [SOp env_yes (OAppWrite 0x1001 [9; 9]); SPoll env_yes (nothing 800)] ++
  skipn 5 (bytes_at 700 (nth 2 dl_frames (mkFrame 0 0 []))).
Definition sl_requests : list (env * req) := map (pair env_yes) [QConnect 0; QMain; QSetMta 0 0x1000; QVariables 0x1001 [9; 9]; QDownload [0x55; 0x66]].
Definition sl_replies : list reply := [Response [0xFF; 0x15; 0x80; 8; 8; 0; 1; 1]; Response [0xFF]; Response [0xFF]].
Lemma sl_woven : weave 0 dl_frames sl_events = operations cfg_sxi sl_requests.
Proof. reflexivity. Qed.
Ltac frs r := eapply fr_cons; [exact (wf_yes _ wf_sxi)|enc|eapply r; side|nf].
Lemma sl_run : exists a rs, ref_run cfg_sxi (power_up cfg_sxi mem0) sl_requests rs a /\ rs = sl_replies /\ map (a_mem a) [0x1000; 0x1001; 0x1002; 0x1003] = [0x55; 0x66; 9; 3].
Proof.
  eexists. eexists. split; unfold sl_requests; cbn [map].
  - frs f_connect. frs f_main. frs f_set_mta. frs f_variables. frs f_download. apply fr_nil.
  - split; vm_compute; reflexivity.
Qed.
Lemma sl_ok : Forall (SpecSxi.fits (lenN (repeat 0 12))) dl_frames /\ Forall (fun f => good cfg_sxi (f_data f)) dl_frames /\
  SpecSxi.quiet 0 (polls sl_events) /\ octets (polls sl_events) ++ [] = wires dl_frames /\ Forall around (others sl_events) /\ Forall key_local (envs sl_events).
Proof.
  destruct serial_case as (_ & A & B & _). split; [exact A|]. split; [exact B|].
  split; [vm_compute; repeat split; congruence|]. split; [vm_compute; reflexivity|].
  split; [repeat constructor|apply yes_local; vm_compute; reflexivity].
Qed.
Lemma sxi_boots : exists s0, boot cfg_sxi mem0 = Ok s0.
Proof. destruct (sxi_at [] eq_refl) as (_ & _ & _ & s0 & B & _). exists s0. exact B. Qed.
