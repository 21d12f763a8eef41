(** Further consequences for C41, C42, C44. *)
From Coq Require Import NArith ZArith List Bool Lia.
From Verif Require Import Base Config State Queue Daq Core Spec Lists DaqInv SpecMem SpecDaq ProofsDaqC ProofsDaqF ProofsDaqG ProofsDaqI.
Import ListNotations.
Open Scope N_scope.

Lemma stop_all : forall c m l s o e tl, reachable c m l s o -> ready s -> dlc_ok c -> daq_open c s -> lenN (0xDD :: 0 :: tl) <= c_ctobuf c ->
  exists d, answers c e (0xDD :: 0 :: tl) s [0xFF] (with_daq d s) /\ ~ measuring (with_daq d s).
Proof.
  intros c m l s o e tl R RD D Op Hl. destruct (synch_thm c m l s o e R RD D Op 0 tl Hl ltac:(lia)) as (d & A & _ & _ & _ & _ & _ & _ & E).
  exists d. split; [exact A|]. unfold measuring, with_daq. cbn [s_daq set_s_daq]. rewrite E. discriminate.
Qed.
Lemma unstarted_sampled : forall c m l s o e t ev os, reachable c m l s o -> wf_env c e -> c_max_ent c < 65536 -> stamp_ok c ->
  (forall e k f, In (e, ORecv (k :: f)) l -> k <> 0xE0 /\ k <> 0xDE) -> represents c s t -> measuring s -> ev < c_nevents c -> getN t 0 = Some os ->
  sampleable c (time_stamp c e s) os -> used s + lenN os <= 4 ->
  exists s' o', step c e (OTrigger ev) s = Ok (s', o') /\ emits o' (dtos (s_mem s) (time_stamp c e s) 0 os).
Proof.
  intros c m l s o e t ev os R We Sm So N Rp M Hv G Sa Hu. eapply unassigned_sampled; eauto. intros e' f Hi. destruct (N e' _ _ Hi) as (X & _). now apply X.
Qed.
Lemma shared_mode : forall c m l s o e mode a b v w pre tl, let f := 0xE0 :: mode :: a :: b :: v :: w :: pre :: tl in
  reachable c m l s o -> ready s -> dlc_ok c -> daq_open c s ->
  bytes f -> lenN f <= c_ctobuf c -> ~ measuring s -> fits c (field c [a; b]) ->
  N.land mode 3 = 0 -> pre <= 1 -> field c [v; w] < c_nevents c ->
  exists d, answers c e f s [0xFF] (with_daq d s) /\
    forall e', time_stamp c e' (with_daq d s) = if c_ts c && N.testbit mode 4 then stamp c (e_timer e') else [].
Proof.
  intros c m l s o e mode a b v w pre tl f R RD D Op Wf Hl M Fl Hm Hp Hv.
  destruct (set_mode_thm c m l s o e R RD D Op mode a b v w pre tl Wf Hl M Fl Hm Hp Hv) as (d & A & _ & B). exists d. split; [exact A|].
  intro e'. unfold time_stamp, with_daq. cbn [s_daq set_s_daq]. now rewrite B.
Qed.
Lemma free_running : forall c m l s o e t, reachable c m l s o -> ready s -> dlc_ok c -> daq_open c s -> c_opt c 0xD6 = true -> lenN (0xD6 :: t) <= c_ctobuf c -> measuring s ->
  exists d, answers c e (0xD6 :: t) s [0xFF] (with_daq d s) /\ emptied d /\ measuring (with_daq d s).
Proof.
  intros c m l s o e t R RD D Op Ho Hl M. destruct (free_thm c m l s o e R RD D Op t Ho Hl) as (d & A & B & C & _). exists d. split; [exact A|]. split; [exact B|].
  unfold measuring, with_daq. cbn [s_daq set_s_daq]. rewrite C. exact M.
Qed.
Lemma alloc_running : forall c m l s o e t r a b tl, let f := 0xD5 :: r :: a :: b :: tl in let n := field c [a; b] in
  reachable c m l s o -> ready s -> dlc_ok c -> daq_open c s -> c_max_ent c < 65536 -> measuring s ->
  represents c s t -> bytes f -> lenN f <= c_ctobuf c -> c_opt c 0xD5 = true -> fits c n ->
  (d_alloc (s_daq s) = AFree \/ d_alloc (s_daq s) = ADaq) -> d_ecnt (s_daq s) + n <= c_max_ent c ->
  exists d, answers c e f s [0xFF] (with_daq d s) /\ represents c (with_daq d s) (t ++ repeat [] (N.to_nat n)) /\ measuring (with_daq d s).
Proof.
  intros c m l s o e t r a b tl f n R RD D Op Sm M Rp Wf Hl Ho Fn Ha Hn.
  destruct (alloc_thm c m l s o e R RD D Op Sm t r a b tl Rp Wf Hl Ho Fn Ha Hn) as (d & A & B & (C & _) & _). exists d. split; [exact A|]. split; [exact B|].
  unfold measuring, with_daq. cbn [s_daq set_s_daq]. rewrite C. exact M.
Qed.
