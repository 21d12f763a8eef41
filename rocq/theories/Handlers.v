(** Universal facts about all command handlers, proved by inverting each. *)
From Coq Require Import NArith ZArith List Bool Lia ZifyBool ZifyNat ZifyN.
From Verif Require Import Base Config Codec Checksum State Queue Daq Core Spec Lists Effects.
Import ListNotations.
Open Scope N_scope.

Ltac leaf :=
  match goal with
  | H : send8 _ _ _ _ = Ok _ |- _ =>
      apply send8_Ok in H; destruct H as (? & ? & ? & ? & ? & ? & ?)
  | H : send_cto _ _ _ = Ok _ |- _ => apply send_cto_Ok in H; destruct H as (? & ? & ?)
  | H : poke _ _ _ = Ok _ |- _ => apply poke_Ok in H; destruct H as (? & ?)
  | H : copy_out _ _ _ _ _ _ _ = Ok _ |- _ => apply copy_out_Ok in H; destruct H as (? & ? & ? & ?)
  | H : copy_in _ _ _ _ _ _ = Ok _ |- _ => apply copy_in_Ok in H; destruct H as (? & ? & ? & ?)
  | H : download_copy _ _ _ _ _ = Ok _ |- _ => apply download_copy_Ok in H; destruct H as (? & ? & ? & ? & ?)
  | H : slice_in _ _ _ = Ok _ |- _ => apply slice_in_Ok in H; destruct H as (? & ? & ?)
  | H : set_busy _ _ _ = Ok _ |- _ => apply set_busy_Ok in H
  | H : sbm_set_active _ _ _ = Ok _ |- _ => apply sbm_set_active_Ok in H
  | H : start_checksum _ _ _ _ = Ok _ |- _ => apply start_checksum_Ok in H; destruct H as [(? & ?)|(? & ? & ?)]
  | H : daq_init_st _ _ = Ok _ |- _ => apply daq_init_st_Ok in H; destruct H as [(? & ?)|(? & ? & ? & ?)]
  | H : calc_mem _ _ _ _ _ _ = Ok _ |- _ => apply calc_mem_Ok in H; destruct H as (? & ?)
  end.

Ltac unfold_h :=
  unfold h_unknown, h_connect, h_disconnect, h_status, h_synch, h_comm_mode, h_get_id, h_get_seed, h_unlock,
    h_set_mta, h_upload, h_short_upload, h_checksum, h_tl_cmd, h_user, h_download, h_download_next, h_download_max,
    h_short_download, h_modify_bits, h_clear_daq_list, h_set_daq_ptr, h_write_daq, h_set_daq_list_mode,
    h_get_daq_list_mode, h_start_stop_list, h_start_stop_synch, h_daq_clock, h_daq_processor_info, h_daq_resolution,
    h_daq_list_info, h_daq_event_info, h_free_daq, h_alloc_daq, h_alloc_odt, h_alloc_odt_entry, h_program_start,
    h_program, h_program_reset, h_pgm_info, h_sector_info, h_program_only_check, h_write_daq_multiple in *;
  unfold upload, upload_block, xcp_disconnect, send_checksum, send_checksum_oor, pgm_idle, daq_stopped, pgm_active, unlocked,
    check_mem, send_result, pos, err, andthen in *.

Ltac crush_h := unfold_h; repeat (first [inv1 | split1 | leaf]; subst; try discriminate).
Ltac splitif := repeat match goal with |- context [if ?b then _ else _] => destruct b end.
Ltac fin := ss; try (splitif; ss); auto.

Definition write_cmds : list N := [0xF0; 0xEF; 0xEE; 0xED; 0xEC].

Lemma mem_entries : forall c e, entries c (fun k h => forall s s' o, h e s = Ok (s', o) ->
   s_mem s' = s_mem s \/ In k write_cmds).
Proof.
  intros c e. apply table_each; intros; try (right; cbn; now auto 10); left; crush_h; solve [fin].
Qed.

(** Fields changed by few handlers only. *)
Lemma fields_entries : forall c e, entries c (fun k h => forall s s' o, h e s = Ok (s', o) ->
   s_in s' = s_in s /\ s_held s' = s_held s /\ s_ctos s' = s_ctos s /\ s_crosb s' = s_crosb s /\
   (s_conn s' = s_conn s \/ k = 0xFF /\ s_conn s' = true)).
Proof.
  intros c e. apply table_each; intros; crush_h; (repeat split; [fin..|]); try (left; solve [fin]);
   try (right; split; [reflexivity|fin]; fail).
Qed.

