(** Vocabulary of the DAQ properties. *)
From Coq Require Import NArith List Bool.
From Verif Require Import Base Config State Core Spec SpecMem.
Import ListNotations.
Open Scope N_scope.

(** ** Configurations as the master sees them *)

(** DAQ lists of ODTs of entries (address, size). *)
Definition tree := list (list (list (N * N))).
Definition odt_at (t : tree) (l o : N) : option (list (N * N)) :=
  match getN t l with Some os => getN os o | None => None end.
Definition entry_at (t : tree) (l o k : N) : option (N * N) :=
  match odt_at t l o with Some es => getN es k | None => None end.

(** Number of ODTs of the lists before list [l]: the identifier of its first ODT. *)
Definition odts_before (t : tree) (l : N) : N := lenN (concat (firstn (N.to_nat l) t)).

(** Replaces element [i] of a list. *)
Definition put {A} (i : N) (x : A) (l : list A) : list A :=
  firstn (N.to_nat i) l ++ x :: skipn (S (N.to_nat i)) l.
Definition put_odts (t : tree) (l : N) (os : list (list (N * N))) : tree := put l os t.
Definition put_entries (t : tree) (l o : N) (es : list (N * N)) : tree :=
  match getN t l with Some os => put l (put o es os) t | None => t end.
Definition put_entry (t : tree) (l o k : N) (x : N * N) : tree :=
  match odt_at t l o with Some es => put_entries t l o (put k x es) | None => t end.

(** ** How the entity pool of the slave represents a configuration *)

Definition body_at (d : daqst) (i : N) : option ebody := option_map en_body (getN (d_ents d) i).
(** Entity [i] is a list or ODT header with [n] children from index [f] on. *)
Definition header (d : daqst) (i n f : N) : Prop :=
  body_at d i = Some (BHdr n f) \/ (body_at d i = Some BZero /\ n = 0 /\ f = 0).
(** Entity [i] is the entry [x]. *)
Definition holds (d : daqst) (i : N) (x : N * N) : Prop :=
  body_at d i = Some (BEnt (fst x) (snd x)) \/ (body_at d i = Some BZero /\ x = (0, 0)).

(** [fo l]: entity index of the first ODT of list [l]; [fe l o]: of the first
    entry of an ODT.  No entity is used twice, the rest of the pool is clear. *)
Record represents_by (fo : N -> N) (fe : N -> N -> N) (c : cfg) (d : daqst) (t : tree) : Prop := mkRep {
  r_lists : d_lcnt d = lenN t;
  r_odts : d_ocnt d = lenN (concat t);
  r_count : d_ecnt d = lenN t + lenN (concat t) + lenN (concat (concat t));
  r_list : forall l os, getN t l = Some os -> header d l (lenN os) (fo l);
  r_odt : forall l o es, odt_at t l o = Some es -> header d (fo l + o) (lenN es) (fe l o);
  r_entry : forall l o k x, entry_at t l o k = Some x -> holds d (fe l o + k) x;
  r_odt_in : forall l o es, odt_at t l o = Some es -> lenN t <= fo l + o < lenN t + lenN (concat t);
  r_entry_in : forall l o k x, entry_at t l o k = Some x -> lenN t + lenN (concat t) <= fe l o + k < d_ecnt d;
  r_odt_one : forall l o l' o' es es', odt_at t l o = Some es -> odt_at t l' o' = Some es' -> fo l + o = fo l' + o' -> l = l' /\ o = o';
  r_entry_one : forall l o k l' o' k' x x', entry_at t l o k = Some x -> entry_at t l' o' k' = Some x' ->
    fe l o + k = fe l' o' + k' -> l = l' /\ o = o' /\ k = k';
  r_free : forall i, d_ecnt d <= i < c_max_ent c -> body_at d i = Some BZero
}.
Definition represents (c : cfg) (s : st) (t : tree) : Prop := exists fo fe, represents_by fo fe c (s_daq s) t.

(** ** Commands *)

(** DAQ is compiled in, and neither locked nor blocked by programming mode. *)
Definition daq_open (c : cfg) (s : st) : Prop := c_daq c = true /\ ~ programming s /\ ~ locked c 4 s.

(** Pools below 256 entities use 8-bit list numbers and counts; this says that
    [x] is representable. *)
Definition fits (c : cfg) (x : N) : Prop := c_max_ent c < 256 -> x < 256.

(** The session with another DAQ state. *)
Definition with_daq (d : daqst) (s : st) : st := set_s_daq d s.

(** Allocation commands that the protocol allows in a phase; a phase is named
    after the last accepted allocation command.  [in_sequence a k b]: command [k]
    is allowed in phase [a] and leads to phase [b]. *)
Inductive in_sequence : alloc -> N -> alloc -> Prop :=
| seq_free : forall a, in_sequence a 0xD6 AFree
| seq_daq1 : in_sequence AFree 0xD5 ADaq
| seq_daq2 : in_sequence ADaq 0xD5 ADaq
| seq_odt1 : in_sequence ADaq 0xD4 AOdt
| seq_odt2 : in_sequence AOdt 0xD4 AOdt
| seq_ent1 : in_sequence AOdt 0xD3 AEntry
| seq_ent2 : in_sequence AEntry 0xD3 AEntry.

(** All of [d'] but the named parts is as in [d]. *)
Definition only_tables (d d' : daqst) : Prop :=
  d_run d' = d_run d /\ d_plist d' = d_plist d /\ d_podt d' = d_podt d /\ d_pent d' = d_pent d /\ d_mode d' = d_mode d /\
  d_lfe d' = d_lfe d /\ d_q d' = d_q d.

(** Nothing is allocated and no event is assigned. *)
Definition emptied (d : daqst) : Prop :=
  d_alloc d = AFree /\ d_lcnt d = 0 /\ d_ocnt d = 0 /\ d_ecnt d = 0 /\
  Forall (fun e => en_kind e = KUnused /\ en_body e = BZero) (d_ents d) /\ Forall (fun l => l = 0) (d_lfe d).

(** Frames of the allocation commands: code and requested number. *)
Definition alloc_frame (c : cfg) (f : list N) (k n : N) : Prop :=
  (k = 0xD5 /\ exists r a b t, f = 0xD5 :: r :: a :: b :: t /\ n = field c [a; b]) \/
  (k = 0xD4 /\ exists r a b t, f = 0xD4 :: r :: a :: b :: n :: t) \/
  (k = 0xD3 /\ exists r a b o t, f = 0xD3 :: r :: a :: b :: o :: n :: t).

(** Number of entities of a kind. *)
Definition is_kind (k : ekind) (e : entity) : bool :=
  match k, en_kind e with
  | KList, KList | KOdt, KOdt | KEntry, KEntry | KUnused, KUnused => true
  | _, _ => false
  end.
Definition count (k : ekind) (s : st) : N := lenN (filter (is_kind k) (d_ents (s_daq s))).

(** ** Histories of a rule-abiding master *)

(** Exactly one response, a positive one. *)
Definition accepted (o : list pkt) : Prop := exists p, o = [p] /\ p_dto p = false /\ hd_error (p_data p) = Some 0xFF.
(** Exactly one response, error [code]. *)
Definition rejected (o : list pkt) (code : N) : Prop := exists p, o = [p] /\ p_dto p = false /\ firstn 2 (p_data p) = [0xFE; code].

(** Elements of WRITE_DAQ_MULTIPLE: bit offset, size, address, extension, dummy. *)
Fixpoint elements (c : cfg) (n : nat) (b : list N) : option (list (N * N)) :=
  match n, b with
  | O, _ => Some []
  | S k, _ :: n :: a0 :: a1 :: a2 :: a3 :: _ :: _ :: t =>
      option_map (cons (field c [a0; a1; a2; a3], n)) (elements c k t)
  | _, _ => None
  end.
Fixpoint put_all (t : tree) (l o k : N) (xs : list (N * N)) : tree :=
  match xs with [] => t | x :: r => put_all (put_entry t l o k x) l o (k + 1) r end.

(** The configuration that a command asks for: ODTs are allocated once per list,
    entries once per ODT, and only for lists and ODTs that exist; WRITE_DAQ is
    used with a pointer to an existing entry. *)
Definition requests (c : cfg) (s : st) (t : tree) (f : list N) (t' : tree) : Prop :=
  let d := s_daq s in
  match f with
  | 0xD6 :: _ => t' = []
  | 0xD5 :: _ :: a :: b :: _ => fits c (field c [a; b]) /\ t' = t ++ repeat [] (N.to_nat (field c [a; b]))
  | 0xD4 :: _ :: a :: b :: n :: _ =>
      getN t (field c [a; b]) = Some [] /\ t' = put_odts t (field c [a; b]) (repeat [] (N.to_nat n))
  | 0xD3 :: _ :: a :: b :: o :: n :: _ =>
      odt_at t (field c [a; b]) o = Some [] /\ t' = put_entries t (field c [a; b]) o (repeat (0, 0) (N.to_nat n))
  | 0xE1 :: _ :: n :: _ :: a0 :: a1 :: a2 :: a3 :: _ =>
      (exists x, entry_at t (d_plist d) (d_podt d) (d_pent d) = Some x) /\
      t' = put_entry t (d_plist d) (d_podt d) (d_pent d) (field c [a0; a1; a2; a3], n)
  | 0xC7 :: n :: b =>
      exists xs, elements c (N.to_nat n) b = Some xs /\
      (forall i, i < n -> exists x, entry_at t (d_plist d) (d_podt d) (d_pent d + i) = Some x) /\
      t' = put_all t (d_plist d) (d_podt d) (d_pent d) xs
  | _ => False
  end.

(** Commands and calls that end the session or reset the configuration. *)
Definition resets (c : cfg) (x : op) (o : list pkt) : Prop :=
  match x with
  | ODisconnect | OInit => c_daq c = true
  | ORecv (k :: _) =>
      c_daq c = true /\
      (k = 0xFE /\ accepted o \/ c_reset_seq c = true /\ In k [0xD5; 0xD4; 0xD3] /\ rejected o 0x29)
  | _ => False
  end.

(** Operations that leave the configuration alone: those not concerned with it,
    and commands that are not answered positively. *)
Definition leaves (c : cfg) (x : op) (o : list pkt) : Prop :=
  match x with
  | ORecv (k :: _) =>
      k <> 0xFE /\ (k = 0xF7 -> accepted o) /\
      (In k [0xD6; 0xD5; 0xD4; 0xD3; 0xE1; 0xC7] -> ~ accepted o /\ ~ resets c x o)
  | ODisconnect | OInit => False
  | _ => True
  end.

(** [builds c s t l s' t']: executing [l] takes [s] to [s'], and the commands
    among [l] take the configuration [t] to [t']. *)
Inductive builds (c : cfg) : st -> tree -> list (env * op) -> st -> tree -> Prop :=
| b_nil : forall s t, builds c s t [] s t
| b_request : forall s t e f l s1 o t1 s2 t2,
    step c e (ORecv f) s = Ok (s1, o) -> accepted o -> requests c s t f t1 -> builds c s1 t1 l s2 t2 ->
    builds c s t ((e, ORecv f) :: l) s2 t2
| b_reset : forall s t e x l s1 o s2 t2,
    step c e x s = Ok (s1, o) -> resets c x o -> builds c s1 [] l s2 t2 ->
    builds c s t ((e, x) :: l) s2 t2
| b_leave : forall s t e x l s1 o s2 t2,
    step c e x s = Ok (s1, o) -> leaves c x o -> builds c s1 t l s2 t2 ->
    builds c s t ((e, x) :: l) s2 t2.

(** ** Sampling *)

(** Bytes of the time stamp [v] in the byte order of the target. *)
Definition stamp (c : cfg) (v : N) : list N :=
  let bs := le_bytes (N.to_nat (c_ts_size c)) v in if c_host_be c then rev bs else bs.

(** The frame for an ODT with identifier [pid] and entries [es]. *)
Definition dto (m : mem) (ts : list N) (pid : N) (es : list (N * N)) : list N :=
  pid mod 256 :: ts ++ concat (map (fun x => mem_at m (fst x) (snd x)) es).

(** The frames for the ODTs [os]; only the first one carries the time stamp. *)
Fixpoint dtos (m : mem) (ts : list N) (pid : N) (os : list (list (N * N))) : list (list N) :=
  match os with [] => [] | es :: t => dto m ts pid es :: dtos m [] (pid + 1) t end.

(** The entries can be read and their bytes fit in a frame. *)
Definition sampled_ok (c : cfg) (ts : list N) (es : list (N * N)) : Prop :=
  Forall (fun x => 1 <= snd x /\ in_space c (fst x) (snd x)) es /\
  1 + lenN ts + lenN (concat (map (fun x => repeat 0 (N.to_nat (snd x))) es)) <= N.min (c_max_dto c) 255.

(** The session with some other contents of the transmit queue. *)
Definition same_but_queue (s s' : st) : Prop := exists q, same_session (set_s_daq (set_d_q q (s_daq s)) s) s'.

(** A time stamp is requested for the first frame of a sample. *)
Definition time_stamp (c : cfg) (e : env) (s : st) : list N :=
  if c_ts c && N.testbit (d_mode (s_daq s)) 4 then stamp c (e_timer e) else [].
(** Event [ev] belongs to list [l]. *)
Definition assigned (s : st) (ev l : N) : Prop := getN (d_lfe (s_daq s)) ev = Some l.
(** Number of the queue slot that the next frame is stored in. *)
Definition used (s : st) : N := q_head (d_q (s_daq s)).
(** All ODTs can be sampled. *)
Definition sampleable (c : cfg) (ts : list N) (os : list (list (N * N))) : Prop :=
  forall i es, getN os i = Some es -> sampled_ok c (if i =? 0 then ts else []) es.
(** The time stamp is not truncated on a big-endian target (see [stamp]). *)
Definition stamp_ok (c : cfg) : Prop := c_host_be c = true -> c_ts_size c = 4.
(** The slave transmits the DAQ frames [fs] and nothing else. *)
Definition emits (o : list pkt) (fs : list (list N)) : Prop := map p_data o = fs /\ Forall (fun p => p_dto p = true) o.

(** Frames of a series of events (environment, event number) in the running
    configuration [t]. *)
Inductive samples (c : cfg) (s : st) (t : tree) : list (env * N) -> list (list N) -> Prop :=
| sm_nil : samples c s t [] []
| sm_cons : forall e ev l os es fs,
    wf_env c e -> ev < 256 -> assigned s ev l -> getN t l = Some os -> sampleable c (time_stamp c e s) os -> samples c s t es fs ->
    samples c s t ((e, ev) :: es) (dtos (s_mem s) (time_stamp c e s) (odts_before t l) os ++ fs).
Definition triggers (es : list (env * N)) : list (env * op) := map (fun x => (fst x, OTrigger (snd x))) es.
