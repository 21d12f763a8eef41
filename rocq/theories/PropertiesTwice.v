(** C143: allocating again for the same ODT or the same list. *)
From Coq Require Import NArith List Bool Lia.
From Verif Require Import Base Config Cfgs Codec State Daq Core Spec Demo SpecMem SpecDaq ProofsFrames DemoDaq CasesDaq2 SpecTwice ProofsTwice.
Import ListNotations.
Open Scope N_scope.

(** ** C143 Repeated allocation replaces what was allocated before *)

Theorem C143_from_start : forall c s t, represents c s t -> loosely c s t.
Proof. intros c s t (fo & fe & R). exists fo, fe. exact (rep_loosely fo fe c (s_daq s) t R). Qed.
Print Assumptions C143_from_start.

(** Entries: the ODT then has exactly the entries of the last ALLOC_ODT_ENTRY, all
    clear, and the other ODTs are as before; again and again ... *)
Theorem C143_entries : forall c m l s o e t r a b k n tl old, let f := 0xD3 :: r :: a :: b :: k :: n :: tl in let l' := field c [a; b] in
  reachable c m l s o -> ready s -> dlc_ok c -> daq_open c s -> c_max_ent c < 65536 ->
  loosely c s t -> odt_at t l' k = Some old -> bytes f -> lenN f <= c_ctobuf c -> c_opt c 0xD3 = true ->
  (d_alloc (s_daq s) = AOdt \/ d_alloc (s_daq s) = AEntry) -> d_ecnt (s_daq s) + n <= c_max_ent c ->
  exists d, answers c e f s [0xFF] (with_daq d s) /\ loosely c (with_daq d s) (put_entries t l' k (repeat (0, 0) (N.to_nat n))) /\
    only_tables (s_daq s) d /\ d_alloc d = AEntry.
Proof. intros c m l s o e t r a b k n tl old f l' R RD D Op Sm. exact (lo_entry_thm c m l s o e R RD D Op Sm t r a b k n tl old). Qed.
Print Assumptions C143_entries.

(** ... SET_DAQ_PTR accepts exactly these entries ... *)
Theorem C143_set_daq_ptr : forall c m l s o e t r a b k j tl, let f := 0xE2 :: r :: a :: b :: k :: j :: tl in let l' := field c [a; b] in
  reachable c m l s o -> ready s -> dlc_ok c -> daq_open c s -> c_max_ent c < 65536 ->
  loosely c s t -> ~ measuring s -> bytes f -> lenN f <= c_ctobuf c -> fits c l' ->
  match entry_at t l' k j with
  | Some _ => answers c e f s [0xFF] (with_daq (set_d_pent j (set_d_podt k (set_d_plist l' (s_daq s)))) s)
  | None => refuses c e f s 0x22
  end.
Proof. intros c m l s o e t r a b k j tl f l' R RD D Op Sm. exact (lo_ptr_thm c m l s o e R RD D Op Sm t r a b k j tl). Qed.
Print Assumptions C143_set_daq_ptr.

(** ... and WRITE_DAQ writes exactly the entry pointed to. *)
Theorem C143_write : forall c m l s o e t r n x a0 a1 a2 a3 tl y, let f := 0xE1 :: r :: n :: x :: a0 :: a1 :: a2 :: a3 :: tl in
  let d := s_daq s in
  reachable c m l s o -> ready s -> dlc_ok c -> daq_open c s -> c_max_ent c < 65536 ->
  loosely c s t -> ~ measuring s -> lenN f <= c_ctobuf c -> entry_at t (d_plist d) (d_podt d) (d_pent d) = Some y ->
  exists es, let d' := set_d_pent (d_pent d + 1) (set_d_ents es d) in
    answers c e f s [0xFF] (with_daq d' s) /\
    loosely c (with_daq d' s) (put_entry t (d_plist d) (d_podt d) (d_pent d) (field c [a0; a1; a2; a3], n)).
Proof. intros c m l s o e t r n x a0 a1 a2 a3 tl y f d R RD D Op Sm. exact (lo_write_thm c m l s o e R RD D Op Sm t r n x a0 a1 a2 a3 tl y). Qed.
Print Assumptions C143_write.

(** ODTs: refuted.  A second ALLOC_ODT for a list that has ODTs is accepted; the
    list then claims the old number of ODTs behind the new ones, where the
    entries lie.  All further commands are accepted, and in the end the slave
    takes a written entry for an ODT. *)
Theorem C143_refuted : forall c m l s o e t a b os n k sz x0 x1 x2 x3,
  reachable c m l s o -> ready s -> dlc_ok c -> daq_open c s -> ~ measuring s -> c_max_ent c < 65536 -> wf_env c e ->
  c_opt c 0xD4 = true -> c_opt c 0xD3 = true -> 8 <= c_ctobuf c ->
  represents c s t -> d_alloc (s_daq s) = AOdt -> getN t (field c [a; b]) = Some os -> 1 <= lenN os ->
  1 <= n -> 1 <= k -> bytes [a; b; n; k; sz; x0; x1; x2; x3] -> d_ecnt (s_daq s) + n + k <= c_max_ent c ->
  exists s1 o1 s2 o2 s3 o3 s4 o4,
    step c e (ORecv [0xD4; 0; a; b; n]) s = Ok (s1, o1) /\ accepted o1 /\
    step c e (ORecv [0xD3; 0; a; b; 0; k]) s1 = Ok (s2, o2) /\ accepted o2 /\
    step c e (ORecv [0xE2; 0; a; b; 0; 0]) s2 = Ok (s3, o3) /\ accepted o3 /\
    step c e (ORecv [0xE1; 0xFF; sz; 0; x0; x1; x2; x3]) s3 = Ok (s4, o4) /\ accepted o4 /\
    step c e (ORecv [0xE2; 0; a; b; n; 0]) s4 = UB KindPun.
Proof. exact twice_thm. Qed.
Print Assumptions C143_refuted.

(** Two entries for an ODT, then three: the third is accepted by SET_DAQ_PTR, a fourth not. *)
Example C143_entries_case :
  let s := demo_st cfg_daq env_yes ex_alloc in
  reachable cfg_daq mem0 (map (pair env_yes) ex_alloc) s (demo_out cfg_daq env_yes ex_alloc) /\ ready s /\ dlc_ok cfg_daq /\ daq_open cfg_daq s /\
  represents cfg_daq s [[[(0, 0); (0, 0)]; [(0, 0)]]; [[(0, 0)]]] /\ d_alloc (s_daq s) = AEntry /\ (d_ecnt (s_daq s) = 9 /\ c_max_ent cfg_daq = 100) /\
  let s1 := demo_st cfg_daq env_yes (ex_alloc ++ [ORecv [0xD3; 0; 0; 0; 0; 3]]) in
  (exists s' o, step cfg_daq env_yes (ORecv [0xE2; 0; 0; 0; 0; 2]) s1 = Ok (s', o) /\ map p_data o = [[0xFF]]) /\
  (exists s' o, step cfg_daq env_yes (ORecv [0xE2; 0; 0; 0; 0; 3]) s1 = Ok (s', o) /\ map p_data o = [[0xFE; 0x22]]).
Proof. daq_case. fact. split; [vm_compute; split; reflexivity|]. cbv zeta. split; do 2 eexists; vm_compute; split; reflexivity. Qed.

(** The two-list configuration before entries are allocated; list 0 has two ODTs. *)
Example C143_refuted_case :
  let p := firstn 5 ex_alloc in let s := demo_st cfg_daq env_yes p in
  reachable cfg_daq mem0 (map (pair env_yes) p) s (demo_out cfg_daq env_yes p) /\ ready s /\ dlc_ok cfg_daq /\ daq_open cfg_daq s /\
  represents cfg_daq s [[[]; []]; [[]]] /\ d_alloc (s_daq s) = AOdt /\ d_ecnt (s_daq s) + 1 + 2 <= c_max_ent cfg_daq /\ 8 <= c_ctobuf cfg_daq /\
  let q := p ++ [ORecv [0xD4; 0; 0; 0; 1]; ORecv [0xD3; 0; 0; 0; 0; 2]; ORecv [0xE2; 0; 0; 0; 0; 0]; ORecv [0xE1; 0xFF; 4; 0; 0; 0x10; 0; 0]] in
  map p_data (demo_out cfg_daq env_yes q) = map p_data (demo_out cfg_daq env_yes p) ++ [[0xFF]; [0xFF]; [0xFF]; [0xFF]] /\
  step cfg_daq env_yes (ORecv [0xE2; 0; 0; 0; 1; 0]) (demo_st cfg_daq env_yes q) = UB KindPun.
Proof. daq_case. fact. do 2 (split; [vm_compute; discriminate|]). cbv zeta. split; vm_compute; reflexivity. Qed.
