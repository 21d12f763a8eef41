(** C32 - C39: DAQ configuration. *)
From Coq Require Import NArith List Bool Lia.
From Verif Require Import Base Config Cfgs State Daq Core Spec Demo SpecMem SpecDaq ProofsDaqA ProofsDaqC ProofsDaqD ProofsDaqE ProofsDaqG ProofsDaqH DemoDaq Steps CasesDaq.
Import ListNotations.
Open Scope N_scope.

(** ** C32 DAQ allocation follows the protocol's sequence *)

(** Whatever happens, the allocation phase changes only along the protocol's
    sequence, by an accepted command, or because everything is reset. *)
Theorem C32_phases : forall c m l s o e x s' o',
  reachable c m l s o -> dlc_ok c -> c_max_ent c < 65536 -> wf_op c (e, x) -> step c e x s = Ok (s', o') ->
  d_alloc (s_daq s') = d_alloc (s_daq s) \/ emptied (s_daq s') /\ d_run (s_daq s') = false \/
  exists k t, x = ORecv (k :: t) /\ accepted o' /\ in_sequence (d_alloc (s_daq s)) k (d_alloc (s_daq s')).
Proof. exact phase_thm. Qed.
Print Assumptions C32_phases.

(** Out of sequence: ERR_SEQUENCE.  Nothing changes, unless the build option that
    resets the configuration on a sequence error is on. *)
Theorem C32_out_of_sequence : forall c m l s o e f k n,
  reachable c m l s o -> ready s -> dlc_ok c -> daq_open c s ->
  bytes f -> lenN f <= c_ctobuf c -> alloc_frame c f k n -> c_opt c k = true -> (k = 0xD5 -> fits c n) ->
  (forall b, ~ in_sequence (d_alloc (s_daq s)) k b) ->
  if c_reset_seq c then exists d, answers c e f s [0xFE; 0x29] (with_daq d s) /\ emptied d /\ d_run d = false
  else refuses c e f s 0x29.
Proof. intros c m l s o e f k n R RD D Op. exact (out_of_seq c m l s o e R RD D Op f k n). Qed.
Print Assumptions C32_out_of_sequence.

(** Beyond the pool: ERR_MEMORY_OVERFLOW and nothing changes. *)
Theorem C32_overflow : forall c m l s o e f k n,
  reachable c m l s o -> ready s -> dlc_ok c -> daq_open c s ->
  bytes f -> lenN f <= c_ctobuf c -> alloc_frame c f k n -> c_opt c k = true -> (k = 0xD5 -> fits c n) ->
  (exists b, in_sequence (d_alloc (s_daq s)) k b) -> c_max_ent c < d_ecnt (s_daq s) + n ->
  refuses c e f s 0x30.
Proof. intros c m l s o e f k n R RD D Op. exact (overflow c m l s o e R RD D Op f k n). Qed.
Print Assumptions C32_overflow.

(** FREE_DAQ is accepted in every phase; it leaves running flag, pointer, mode and queue. *)
Theorem C32_free : forall c m l s o e t,
  reachable c m l s o -> ready s -> dlc_ok c -> daq_open c s -> c_opt c 0xD6 = true -> lenN (0xD6 :: t) <= c_ctobuf c ->
  exists d, answers c e (0xD6 :: t) s [0xFF] (with_daq d s) /\ emptied d /\
    d_run d = d_run (s_daq s) /\ d_plist d = d_plist (s_daq s) /\ d_podt d = d_podt (s_daq s) /\ d_pent d = d_pent (s_daq s) /\
    d_mode d = d_mode (s_daq s) /\ d_q d = d_q (s_daq s).
Proof. intros c m l s o e t R RD D Op. exact (free_thm c m l s o e R RD D Op t). Qed.
Print Assumptions C32_free.

(** The other three are accepted in sequence if the pool suffices, and change
    nothing but the tables. *)
Theorem C32_alloc_daq : forall c m l s o e t r a b tl, let f := 0xD5 :: r :: a :: b :: tl in let n := field c [a; b] in
  reachable c m l s o -> ready s -> dlc_ok c -> daq_open c s -> c_max_ent c < 65536 ->
  represents c s t -> bytes f -> lenN f <= c_ctobuf c -> c_opt c 0xD5 = true -> fits c n ->
  (d_alloc (s_daq s) = AFree \/ d_alloc (s_daq s) = ADaq) -> d_ecnt (s_daq s) + n <= c_max_ent c ->
  exists d, answers c e f s [0xFF] (with_daq d s) /\ represents c (with_daq d s) (t ++ repeat [] (N.to_nat n)) /\
    only_tables (s_daq s) d /\ d_alloc d = ADaq.
Proof. intros c m l s o e t r a b tl f n R RD D Op Sm. exact (alloc_thm c m l s o e R RD D Op Sm t r a b tl). Qed.
Print Assumptions C32_alloc_daq.

Theorem C32_alloc_odt : forall c m l s o e t r a b n tl, let f := 0xD4 :: r :: a :: b :: n :: tl in let l' := field c [a; b] in
  reachable c m l s o -> ready s -> dlc_ok c -> daq_open c s -> c_max_ent c < 65536 ->
  represents c s t -> getN t l' = Some [] -> bytes f -> lenN f <= c_ctobuf c -> c_opt c 0xD4 = true ->
  (d_alloc (s_daq s) = ADaq \/ d_alloc (s_daq s) = AOdt) -> d_ecnt (s_daq s) + n <= c_max_ent c ->
  exists d, answers c e f s [0xFF] (with_daq d s) /\ represents c (with_daq d s) (put_odts t l' (repeat [] (N.to_nat n))) /\
    only_tables (s_daq s) d /\ d_alloc d = AOdt.
Proof. intros c m l s o e t r a b n tl f l' R RD D Op Sm. exact (alloc_odt_thm c m l s o e R RD D Op Sm t r a b n tl). Qed.
Print Assumptions C32_alloc_odt.

Theorem C32_alloc_odt_entry : forall c m l s o e t r a b k n tl, let f := 0xD3 :: r :: a :: b :: k :: n :: tl in let l' := field c [a; b] in
  reachable c m l s o -> ready s -> dlc_ok c -> daq_open c s -> c_max_ent c < 65536 ->
  represents c s t -> odt_at t l' k = Some [] -> bytes f -> lenN f <= c_ctobuf c -> c_opt c 0xD3 = true ->
  (d_alloc (s_daq s) = AOdt \/ d_alloc (s_daq s) = AEntry) -> d_ecnt (s_daq s) + n <= c_max_ent c ->
  exists d, answers c e f s [0xFF] (with_daq d s) /\ represents c (with_daq d s) (put_entries t l' k (repeat (0, 0) (N.to_nat n))) /\
    only_tables (s_daq s) d /\ d_alloc d = AEntry.
Proof. intros c m l s o e t r a b k n tl f l' R RD D Op Sm. exact (alloc_entry_thm c m l s o e R RD D Op Sm t r a b k n tl). Qed.
Print Assumptions C32_alloc_odt_entry.

(** After FREE_DAQ and ALLOC_DAQ 2: a further ODT is in sequence, an entry is not,
    and 99 lists do not fit. *)
Example C32_case :
  let s := demo_st cfg_daq env_yes ex_two in
  reachable cfg_daq mem0 (map (pair env_yes) ex_two) s (demo_out cfg_daq env_yes ex_two) /\ ready s /\ dlc_ok cfg_daq /\ daq_open cfg_daq s /\
  represents cfg_daq s [[]; []] /\ getN (A := list (list (N * N))) [[]; []] 1 = Some [] /\ d_alloc (s_daq s) = ADaq /\ d_ecnt (s_daq s) = 2 /\
  in_sequence (d_alloc (s_daq s)) 0xD4 AOdt /\ (forall b, ~ in_sequence (d_alloc (s_daq s)) 0xD3 b) /\
  alloc_frame cfg_daq [0xD3; 0; 0; 0; 0; 1] 0xD3 1 /\ alloc_frame cfg_daq [0xD5; 0; 99; 0] 0xD5 99 /\ c_max_ent cfg_daq < d_ecnt (s_daq s) + 99.
Proof.
  daq_case. do 3 fact.
  assert (E : d_alloc (s_daq (demo_st cfg_daq env_yes ex_two)) = ADaq) by (vm_compute; reflexivity). rewrite E.
  split; [constructor|]. split; [intros b H; inversion H|].
  split; [right; right; split; [reflexivity|]; do 5 eexists; reflexivity|]. split; [left; split; [reflexivity|]; do 4 eexists; split; reflexivity|]. vm_compute. reflexivity.
Qed.

(** ** C33 DAQ pool is never over-allocated *)

(** Number of entities of each kind ... *)
Theorem C33_counts : forall c m l s o, reachable c m l s o ->
  let d := s_daq s in
  count KList s = d_lcnt d /\ count KOdt s = d_ocnt d /\ count KEntry s + d_lcnt d + d_ocnt d = d_ecnt d /\
  count KUnused s + d_ecnt d = c_max_ent c.
Proof. intros c m l s o R. exact (count_thm c s (i_d _ _ (reach_inv _ _ _ _ _ R))). Qed.
Print Assumptions C33_counts.
(** ... and where they are. *)
Theorem C33_layout : forall c m l s o i x, reachable c m l s o -> getN (d_ents (s_daq s)) i = Some x ->
  let d := s_daq s in
  (en_kind x = KList <-> i < d_lcnt d) /\ (en_kind x = KOdt <-> d_lcnt d <= i < d_lcnt d + d_ocnt d) /\
  (en_kind x = KEntry <-> d_lcnt d + d_ocnt d <= i < d_ecnt d) /\ (en_kind x = KUnused <-> d_ecnt d <= i).
Proof. intros c m l s o i x R. exact (kind_thm c s (i_d _ _ (reach_inv _ _ _ _ _ R)) i x). Qed.
Print Assumptions C33_layout.

Example C33_case :
  let s := demo_st cfg_daq env_yes ex_write in
  reachable cfg_daq mem0 (map (pair env_yes) ex_write) s (demo_out cfg_daq env_yes ex_write) /\
  count KList s = 2 /\ count KOdt s = 3 /\ count KEntry s = 4 /\ count KUnused s = 91 /\ c_max_ent cfg_daq = 100.
Proof. cbv zeta. split; [apply daq_at; vm_compute; reflexivity|]. vm_compute. repeat split. Qed.

(** ** C34 DAQ tables represent the requested configuration *)
Theorem C34_power_on : forall c m s, c_daq c = true -> boot c m = Ok s -> represents c s [].
Proof. exact boot_empty. Qed.
Print Assumptions C34_power_on.

(** By induction over any history in which allocation and WRITE_DAQ commands are
    used with existing lists, ODTs and entries (see [builds]). *)
Theorem C34_history : forall c m l0 s o t l s' t',
  dlc_ok c -> c_max_ent c < 65536 -> reachable c m l0 s o -> represents c s t -> wf_run c l -> builds c s t l s' t' ->
  represents c s' t' /\ exists o', run c l s = Ok (s', o') /\ reachable c m (l0 ++ l) s' (o ++ o').
Proof. exact builds_reach. Qed.
Print Assumptions C34_history.

(** The tables determine the configuration. *)
Theorem C34_unique : forall c s t t', represents c s t -> represents c s t' -> t = t'.
Proof. exact rep_unique. Qed.
Print Assumptions C34_unique.

Example C34_case :
  let s := demo_st cfg_daq env_yes ex_write in
  (exists s0, boot cfg_daq mem0 = Ok s0 /\ builds cfg_daq s0 [] (map (pair env_yes) ex_write) s ex_tree) /\
  represents cfg_daq s ex_tree /\ ex_tree = [[[(0x1000, 4); (0x1020, 2)]; [(0x1030, 1)]]; [[(0x1040, 3)]]].
Proof.
  cbv zeta. split; [|split; [apply daq_rep; vm_compute; reflexivity|reflexivity]].
  destruct (boot cfg_daq mem0) as [s0|] eqn:B; [|vm_compute in B; discriminate]. exists s0. split; [reflexivity|].
  apply track_ok. vm_compute in B. injection B as <-. vm_compute. reflexivity.
Qed.

(** ** C35 Invalid DAQ list or ODT numbers are rejected: refuted *)

(** ALLOC_ODT for a list number outside the allocated part is accepted and turns an
    unused entity into a header ... *)
Theorem C35_refuted : forall c m l s o e t r a b n tl, let f := 0xD4 :: r :: a :: b :: n :: tl in let l' := field c [a; b] in
  reachable c m l s o -> ready s -> dlc_ok c -> daq_open c s -> c_max_ent c < 65536 ->
  represents c s t -> bytes f -> lenN f <= c_ctobuf c -> c_opt c 0xD4 = true ->
  (d_alloc (s_daq s) = ADaq \/ d_alloc (s_daq s) = AOdt) -> d_ecnt (s_daq s) + n <= c_max_ent c ->
  d_ecnt (s_daq s) <= l' < c_max_ent c ->
  exists d, answers c e f s [0xFF] (with_daq d s) /\ d_ecnt d = d_ecnt (s_daq s) + n /\ d_lcnt d = d_lcnt (s_daq s) /\
    body_at d l' = Some (BHdr n (d_ecnt (s_daq s))).
Proof. intros c m l s o e t r a b n tl f l' R RD D Op Sm. exact (alloc_odt_wild c m l s o e R RD D Op Sm t r a b n tl). Qed.
Print Assumptions C35_refuted.

(** ... and one outside the pool is written to outside the pool. *)
Theorem C35_out_of_bounds : forall c m l s o e r a b n tl, let f := 0xD4 :: r :: a :: b :: n :: tl in let l' := field c [a; b] in
  reachable c m l s o -> ready s -> daq_open c s -> c_max_ent c < 65536 ->
  bytes f -> lenN f <= c_ctobuf c -> c_opt c 0xD4 = true -> fits c l' ->
  (d_alloc (s_daq s) = ADaq \/ d_alloc (s_daq s) = AOdt) -> d_ecnt (s_daq s) + n <= c_max_ent c -> c_max_ent c <= l' ->
  step c e (ORecv f) s = UB OobEntity.
Proof. intros c m l s o e r a b n tl f l' R RD Op Sm. exact (alloc_odt_oob c m l s o e R RD Op Sm r a b n tl). Qed.
Print Assumptions C35_out_of_bounds.

(** Two lists; ODTs for list 7, and for list 200 of a pool of 100. *)
Example C35_case :
  let s := demo_st cfg_daq env_yes ex_two in
  reachable cfg_daq mem0 (map (pair env_yes) ex_two) s (demo_out cfg_daq env_yes ex_two) /\ ready s /\ dlc_ok cfg_daq /\ daq_open cfg_daq s /\
  represents cfg_daq s [[]; []] /\ d_ecnt (s_daq s) = 2 /\
  (exists s' o, step cfg_daq env_yes (ORecv [0xD4; 0; 7; 0; 3]) s = Ok (s', o) /\ map p_data o = [[0xFF]]) /\
  step cfg_daq env_yes (ORecv [0xD4; 0; 200; 0; 3]) s = UB OobEntity.
Proof. daq_case. fact. split; [|vm_compute; reflexivity]. do 2 eexists. vm_compute. split; reflexivity. Qed.

(** ** C36 SET_DAQ_PTR accepts exactly existing entries *)
Theorem C36_set_daq_ptr : forall c m l s o e t r a b k j tl, let f := 0xE2 :: r :: a :: b :: k :: j :: tl in let l' := field c [a; b] in
  reachable c m l s o -> ready s -> dlc_ok c -> daq_open c s -> c_max_ent c < 65536 ->
  represents c s t -> ~ measuring s -> bytes f -> lenN f <= c_ctobuf c -> fits c l' ->
  match entry_at t l' k j with
  | Some _ => answers c e f s [0xFF] (with_daq (set_d_pent j (set_d_podt k (set_d_plist l' (s_daq s)))) s)
  | None => refuses c e f s 0x22
  end.
Proof. intros c m l s o e t r a b k j tl f l' R RD D Op Sm. exact (set_ptr_thm c m l s o e R RD D Op Sm t r a b k j tl). Qed.
Print Assumptions C36_set_daq_ptr.

(** List 0, ODT 0 has entries 0 and 1 and no entry 2. *)
Example C36_case :
  let s := demo_st cfg_daq env_yes ex_write in
  reachable cfg_daq mem0 (map (pair env_yes) ex_write) s (demo_out cfg_daq env_yes ex_write) /\ ready s /\ dlc_ok cfg_daq /\ daq_open cfg_daq s /\
  represents cfg_daq s ex_tree /\ ~ measuring s /\ entry_at ex_tree 0 0 1 = Some (0x1020, 2) /\ entry_at ex_tree 0 0 2 = None.
Proof. daq_case. facts. vm_compute. reflexivity. Qed.

(** ** C37 WRITE_DAQ defines exactly the pointed entry *)
Theorem C37_write_daq : forall c m l s o e t r n x a0 a1 a2 a3 tl y, let f := 0xE1 :: r :: n :: x :: a0 :: a1 :: a2 :: a3 :: tl in
  let d := s_daq s in
  reachable c m l s o -> ready s -> dlc_ok c -> daq_open c s -> c_max_ent c < 65536 ->
  represents c s t -> ~ measuring s -> lenN f <= c_ctobuf c -> entry_at t (d_plist d) (d_podt d) (d_pent d) = Some y ->
  exists es, let d' := set_d_pent (d_pent d + 1) (set_d_ents es d) in
    answers c e f s [0xFF] (with_daq d' s) /\
    represents c (with_daq d' s) (put_entry t (d_plist d) (d_podt d) (d_pent d) (field c [a0; a1; a2; a3], n)).
Proof. intros c m l s o e t r n x a0 a1 a2 a3 tl y f d R RD D Op Sm. exact (write_thm c m l s o e R RD D Op Sm t r n x a0 a1 a2 a3 tl y). Qed.
Print Assumptions C37_write_daq.

Theorem C37_write_daq_multiple : forall c m l s o e t n b xs, let f := 0xC7 :: n :: b in let d := s_daq s in
  reachable c m l s o -> ready s -> dlc_ok c -> daq_open c s -> c_max_ent c < 65536 ->
  represents c s t -> ~ measuring s -> lenN f <= c_ctobuf c -> c_opt c 0xC7 = true -> n * 8 + 2 <= c_max_cto c ->
  elements c (N.to_nat n) b = Some xs ->
  (forall i, i < n -> exists x, entry_at t (d_plist d) (d_podt d) (d_pent d + i) = Some x) ->
  exists es, let d' := set_d_pent (d_pent d + n) (set_d_ents es d) in
    answers c e f s [0xFF] (with_daq d' s) /\
    represents c (with_daq d' s) (put_all t (d_plist d) (d_podt d) (d_pent d) xs).
Proof. intros c m l s o e t n b xs f d R RD D Op Sm. exact (multiple_thm c m l s o e R RD D Op Sm t n b xs). Qed.
Print Assumptions C37_write_daq_multiple.

(** [put_entry] changes the one entry and keeps the shape. *)
Theorem C37_one_entry : forall t l o k x y l' o' k', entry_at t l o k = Some y ->
  entry_at (put_entry t l o k x) l' o' k' = (if (l =? l') && (o =? o') && (k =? k') then Some x else entry_at t l' o' k') /\
  lenN (put_entry t l o k x) = lenN t /\
  (forall es, odt_at t l' o' = Some es -> exists es', odt_at (put_entry t l o k x) l' o' = Some es' /\ lenN es' = lenN es).
Proof. exact put_entry_frame. Qed.
Print Assumptions C37_one_entry.

(** The pointer at the first of two entries. *)
Example C37_case :
  let s := demo_st cfg_daq env_yes ex_ptr in
  let b := [0xFF; 4; 0; 0x10; 0; 0; 0; 0; 0xFF; 2; 0x20; 0x10; 0; 0; 0; 0] in
  reachable cfg_daq mem0 (map (pair env_yes) ex_ptr) s (demo_out cfg_daq env_yes ex_ptr) /\ ready s /\ dlc_ok cfg_daq /\ daq_open cfg_daq s /\
  represents cfg_daq s [[[(0, 0); (0, 0)]; [(0, 0)]]; [[(0, 0)]]] /\
  ~ measuring s /\ d_plist (s_daq s) = 0 /\ d_podt (s_daq s) = 0 /\ d_pent (s_daq s) = 0 /\ c_opt cfg_daq 0xC7 = true /\ 2 * 8 + 2 <= c_max_cto cfg_daq /\
  elements cfg_daq 2 b = Some [(0x1000, 4); (0x1020, 2)] /\
  put_all [[[(0, 0); (0, 0)]; [(0, 0)]]; [[(0, 0)]]] 0 0 0 [(0x1000, 4); (0x1020, 2)] = [[[(0x1000, 4); (0x1020, 2)]; [(0, 0)]]; [[(0, 0)]]].
Proof. daq_case. facts. vm_compute. reflexivity. Qed.

(** ** C38 WRITE_DAQ cannot leave its ODT: refuted *)

(** Behind the last entry of an ODT it defines the first entry of the ODT whose
    entries were allocated next. *)
Theorem C38_refuted : forall c m l s o e t fo fe r n x a0 a1 a2 a3 tl es l' k' y,
  let f := 0xE1 :: r :: n :: x :: a0 :: a1 :: a2 :: a3 :: tl in let d := s_daq s in
  reachable c m l s o -> ready s -> dlc_ok c -> daq_open c s -> c_max_ent c < 65536 ->
  represents_by fo fe c d t -> ~ measuring s -> lenN f <= c_ctobuf c -> odt_at t (d_plist d) (d_podt d) = Some es ->
  d_pent d = lenN es -> entry_at t l' k' 0 = Some y -> fe l' k' = fe (d_plist d) (d_podt d) + lenN es ->
  exists d', answers c e f s [0xFF] (with_daq d' s) /\
    represents c (with_daq d' s) (put_entry t l' k' 0 (field c [a0; a1; a2; a3], n)).
Proof. intros c m l s o e t fo fe r n x a0 a1 a2 a3 tl es l' k' y f d R RD D Op Sm. exact (write_next c m l s o e R RD D Op Sm t fo fe r n x a0 a1 a2 a3 tl es l' k' y). Qed.
Print Assumptions C38_refuted.

(** Behind the end of the pool it writes outside the pool. *)
Theorem C38_out_of_bounds : forall c m l s o e t fo fe r n x a0 a1 a2 a3 tl es,
  let f := 0xE1 :: r :: n :: x :: a0 :: a1 :: a2 :: a3 :: tl in
  let d := s_daq s in let i := fe (d_plist d) (d_podt d) + d_pent d in
  reachable c m l s o -> ready s -> daq_open c s -> c_max_ent c < 65536 ->
  represents_by fo fe c d t -> ~ measuring s -> lenN f <= c_ctobuf c -> odt_at t (d_plist d) (d_podt d) = Some es ->
  c_max_ent c <= i < we c ->
  step c e (ORecv f) s = UB OobEntity.
Proof. intros c m l s o e t fo fe r n x a0 a1 a2 a3 tl es f d i R RD Op Sm. exact (write_oob c m l s o e R RD Op Sm t fo fe r n x a0 a1 a2 a3 tl es). Qed.
Print Assumptions C38_out_of_bounds.

(** Three writes to the two-entry ODT 0 of list 0: the third one arrives in ODT 1.
    With a pool of exactly nine entities, enough writes leave the pool. *)
Example C38_case :
  let s := demo_st cfg_daq env_yes ex_third in
  reachable cfg_daq mem0 (map (pair env_yes) ex_third) s (demo_out cfg_daq env_yes ex_third) /\ ready s /\ dlc_ok cfg_daq /\ daq_open cfg_daq s /\
  represents cfg_daq s [[[(0x1000, 4); (0x1020, 2)]; [(0, 0)]]; [[(0, 0)]]] /\
  ~ measuring s /\ d_plist (s_daq s) = 0 /\ d_podt (s_daq s) = 0 /\ d_pent (s_daq s) = 2 /\
  hdr_at (s_daq s) 2 = Ok (2, 5) /\ hdr_at (s_daq s) 3 = Ok (1, 7) /\
  demo_ok cfg_nine env_yes (ex_alloc ++ [ORecv [0xE2; 0; 1; 0; 0; 0]; ORecv [0xE1; 0xFF; 4; 0; 0; 0x10; 0; 0]]) = true /\
  step cfg_nine env_yes (ORecv [0xE1; 0xFF; 2; 0; 0x20; 0x10; 0; 0])
    (demo_st cfg_nine env_yes (ex_alloc ++ [ORecv [0xE2; 0; 1; 0; 0; 0]; ORecv [0xE1; 0xFF; 4; 0; 0; 0x10; 0; 0]])) = UB OobEntity.
Proof. daq_case. facts. vm_compute. reflexivity. Qed.

(** ** C39 Absolute ODT numbers identify ODTs uniquely *)

(** START_STOP_DAQ_LIST reports the number of ODTs of the preceding lists (one
    byte), and changes at most the mode. *)
Theorem C39_first_pid : forall c m l s o e t mode a b tl os, let f := 0xDE :: mode :: a :: b :: tl in let l' := field c [a; b] in
  reachable c m l s o -> ready s -> dlc_ok c -> daq_open c s -> c_max_ent c < 65536 ->
  represents c s t -> getN t l' = Some os -> bytes f -> lenN f <= c_ctobuf c -> mode <= 2 ->
  answers c e f s [0xFF; odts_before t l' mod 256; 0; 0; 0; 0; 0; 0]
    (with_daq (if mode =? 2 then set_d_mode (N.lor (d_mode (s_daq s)) 0x40) (s_daq s) else s_daq s) s).
Proof. intros c m l s o e t mode a b tl os f l' R RD D Op Sm. exact (start_list_thm c m l s o e R RD D Op t mode a b tl os Sm). Qed.
Print Assumptions C39_first_pid.

(** Up to 252 ODTs the identifiers differ and are none of the reserved ones. *)
Theorem C39_unique : forall t l o l' o' es es', lenN (concat t) <= 252 -> odt_at t l o = Some es -> odt_at t l' o' = Some es' ->
  (odts_before t l + o) mod 256 < 0xFC /\ ((odts_before t l + o) mod 256 = (odts_before t l' + o') mod 256 -> l = l' /\ o = o').
Proof. exact pid_mod. Qed.
Print Assumptions C39_unique.

(** More ODTs are allocated just as well: identifiers are then reserved ones. *)
Theorem C39_refuted : forall t,
  (252 < lenN (concat t) -> exists l o es, odt_at t l o = Some es /\ (odts_before t l + o) mod 256 = 0xFC) /\
  (256 < lenN (concat t) -> exists l o es l' o' es', odt_at t l o = Some es /\ odt_at t l' o' = Some es' /\
     (odts_before t l + o) mod 256 = (odts_before t l' + o') mod 256 /\ ~ (l = l' /\ o = o')).
Proof. exact (fun t => conj (pid_reserved t) (pid_shared t)). Qed.
Print Assumptions C39_refuted.
Example C39_refuted_case :
  let s := demo_st cfg_many env_yes ex_many in let t := [repeat [] 252; repeat [] 10] in
  reachable cfg_many mem0 (map (pair env_yes) ex_many) s (demo_out cfg_many env_yes ex_many) /\ represents cfg_many s t /\ lenN (concat t) = 262.
Proof.
  cbv zeta. assert (W : wf_cfg cfg_many) by wf_cfg_tac.
  split; [apply demo_at; auto using wf_yes; vm_compute; reflexivity|]. split; [|reflexivity].
  apply demo_rep; auto using wf_yes; try discriminate; vm_compute; reflexivity.
Qed.

Example C39_case :
  let s := demo_st cfg_daq env_yes ex_write in
  reachable cfg_daq mem0 (map (pair env_yes) ex_write) s (demo_out cfg_daq env_yes ex_write) /\ ready s /\ dlc_ok cfg_daq /\ daq_open cfg_daq s /\
  represents cfg_daq s ex_tree /\ getN ex_tree 1 = Some [[(0x1040, 3)]] /\ odts_before ex_tree 1 = 2 /\ lenN (concat ex_tree) = 3 /\
  odt_at ex_tree 0 1 = Some [(0x1030, 1)] /\ odt_at ex_tree 1 0 = Some [(0x1040, 3)].
Proof. daq_case. facts. vm_compute. reflexivity. Qed.
