(** Every handler preserves the basic invariant and transmits well-formed frames. *)
From Coq Require Import NArith ZArith List Bool Lia ZifyBool ZifyNat ZifyN.
From Verif Require Import Base Config Codec Checksum State Queue Daq Core Spec Lists Effects Handlers HTx.
Import ListNotations.
Open Scope N_scope.

Ltac split_st :=
  repeat match goal with
  | H : context [s_out (if ?b then _ else _)] |- _ => destruct b eqn:?
  end.
Ltac norm_hyps :=
  repeat match goal with
  | H : lenN _ = lenN _ |- _ => ss_in H; revert H
  | H : _ <= lenN _ |- _ => ss_in H; revert H
  | H : bytes _ -> _ |- _ => ss_in H; revert H
  | H : 8 <= _ -> _ |- _ => revert H
  end; intros.

Ltac use_bytes :=
  repeat match goal with
  | H : bytes ?a -> bytes ?b -> bytes ?x |- _ =>
      let P := fresh in assert (P : bytes x) by (apply H; [assumption|bytes_tac; try lia]); clear H
  | H : bytes ?a -> (forall y, _) -> bytes ?x |- _ =>
      let P := fresh in assert (P : bytes x) by (apply H; assumption); clear H
  end.

Ltac tx_eq := first [solve [ss; reflexivity] | fin; congruence].
Ltac tx_go :=
  lazymatch goal with
  | |- tx _ _ [] _ => apply tx_refl; fin
  | |- tx _ _ ([?p] ++ []) _ => change ([p] ++ []) with [p]; tx_go
  | |- tx _ _ ([] ++ [?p]) _ => change ([] ++ [p]) with [p]; tx_go
  | |- tx _ _ ([] ++ []) _ => change (@nil pkt ++ []) with (@nil pkt); tx_go
  | |- tx ?c ?s [mkPkt false (mk_hdr _ ?n ?k) (takeN _ ?ob)] _ =>
      apply tx_one; [tx_eq|tx_eq|tx_eq|ss; try congruence|ss; splitif; try lia|ss; try lia; splitif; try lia|ss; try assumption]
  | |- tx ?c ?s ([mkPkt false (mk_hdr _ ?n ?k) (takeN _ ?ob)] ++ [?q]) _ =>
      apply (tx_trans c s _ (bump c (set_s_out ob s))); [assumption|tx_go|tx_go]
  end.

Ltac open_binv :=
  match goal with H : binv _ _ |- _ => destruct H as [b_in b_inb b_out b_outb b_prot b_seed b_mext b_maddr b_srem b_mrem b_held b_mem b_ctr b_cros] end.

Lemma tx_entries : forall c e, wf_cfg c -> wf_env c e ->
  entries c (fun k h => forall s s' o, binv c s -> h e s = Ok (s', o) -> tx c s o s').
Proof.
  intros c e W1 W2. pose proof (wf_cto c W1) as Wc. pose proof (wf_ctr c W1) as Wr.
  apply table_each; intros; open_binv; crush_o; split_st; norm_hyps; use_bytes; tx_go.
Qed.

