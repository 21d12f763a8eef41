(** Vocabulary of definedness: which operations stay clear of undefined behaviour
    and failed assertions. *)
From Coq Require Import NArith List Bool.
From Verif Require Import Base Config Cfgs State Core Spec SpecMem SpecDaq SpecInfo.
Import ListNotations.
Open Scope N_scope.

(** The operation ends normally. *)
Definition defined (c : cfg) (e : env) (x : op) (s : st) : Prop := exists s' o, step c e x s = Ok (s', o).

(** Parameters as the slave sees them: byte [i] of the receive buffer after the
    frame has arrived.  Bytes that the frame lacks are those of earlier frames. *)
Definition param (s : st) (f : list N) (i : nat) : N := nth i (rxbuf s f) 0.
Definition param2 (c : cfg) (s : st) (f : list N) (i : nat) : N := field c [param s f i; param s f (i + 1)].
Definition param4 (c : cfg) (s : st) (f : list N) (i : nat) : N :=
  field c [param s f i; param s f (i + 1); param s f (i + 2); param s f (i + 3)].

(** [n] bytes can be copied from there into the transmit buffer. *)
Definition readable (c : cfg) (e : env) (ext a n : N) : Prop := 1 <= n /\ in_space c (target c e ext a) n.
(** [n] bytes can be copied there from offset [off] of the receive buffer, whose
    address is taken for 32 bits wide. *)
Definition writable (c : cfg) (e : env) (ext a off n : N) : Prop :=
  1 <= n /\ target c e ext a <> 0 /\ in_space c (target c e ext a) n /\ c_buf_addr c + off < 2 ^ 32.

(** Commands that are defined whatever their parameters and the state of the
    session: all but those for memory access, seeds, and the tables of DAQ. *)
Definition harmless : list N :=
  [0xFF; 0xFE; 0xFD; 0xFC; 0xFB; 0xFA; 0xF9; 0xF7; 0xF6; 0xF2; 0xF1;
   0xEB; 0xEA; 0xE9; 0xE8; 0xE7; 0xE6; 0xE5; 0xE4; 0xE3; 0xDF; 0xDD; 0xDC; 0xDB; 0xDA; 0xD9; 0xD7; 0xD6;
   0xD2; 0xD1; 0xD0; 0xCF; 0xCE; 0xCD; 0xCC; 0xCB; 0xCA; 0xC9; 0xC8].

(** Bytes that a block upload sends first, and that DOWNLOAD takes from its frame. *)
Definition first_piece (c : cfg) (n : N) : N := if c_sbm c then N.min n (c_max_cto c - 1) else n.
Definition max_data (c : cfg) : N := c_max_cto c - 2.

(** The rules for memory commands. *)
Definition upload_rule (c : cfg) (e : env) (s : st) (f : list N) : Prop :=
  let n := param s f 1 in
  ~ programming s -> granted c e (s_mext s) (s_maddr s) n false false -> (c_sbm c = false -> n < c_max_cto c) ->
  readable c e (s_mext s) (s_maddr s) (first_piece c n).
Definition short_upload_rule (c : cfg) (e : env) (s : st) (f : list N) : Prop :=
  let n := param s f 1 in
  ~ programming s -> granted c e (s_mext s) (s_maddr s) n false false -> n < c_max_cto c ->
  readable c e (param s f 3) (param4 c s f 4) n.
Definition checksum_rule (c : cfg) (e : env) (s : st) (f : list N) : Prop :=
  let n := param4 c s f 4 in
  ~ programming s -> granted c e (s_mext s) (s_maddr s) n false false -> (c_max_blk c = 0 \/ n <= c_max_blk c) ->
  (c_chunked c = false \/ n <= c_chunk c) -> in_space c (s_maddr s) n.
Definition download_rule (c : cfg) (e : env) (s : st) (f : list N) : Prop :=
  let n := param s f 1 in
  ~ programming s -> granted c e (s_mext s) (s_maddr s) n true false ->
  n <= (if c_mbm c then (c_max_bs c * max_data c) mod 65536 else max_data c) ->
  writable c e (s_mext s) (s_maddr s) 2 (N.min n (max_data c)).
Definition download_next_rule (c : cfg) (e : env) (s : st) (f : list N) : Prop :=
  ~ programming s -> s_mact s = true -> writable c e (s_mext s) (s_maddr s) 2 (N.min (param s f 1) (max_data c)).
Definition download_max_rule (c : cfg) (e : env) (s : st) : Prop :=
  ~ programming s -> writable c e (s_mext s) (s_maddr s) 1 (c_max_cto c - 1).
Definition short_download_rule (c : cfg) (e : env) (s : st) (f : list N) : Prop :=
  let n := param s f 1 in
  ~ programming s -> granted c e (param s f 3) (param4 c s f 4) n true false -> n <= c_max_cto c - 8 ->
  1 <= n /\ target c e (param s f 3) (param4 c s f 4) <> 0 /\ in_space c (target c e (param s f 3) (param4 c s f 4)) n.
Definition modify_rule (c : cfg) (e : env) (s : st) (f : list N) : Prop :=
  granted c e (s_mext s) (s_maddr s) 2 true false ->
  s_maddr s <> 0 /\ in_space c (s_maddr s) 4 /\ param s f 1 <= 31 /\
  N.lxor (param2 c s f 2) 0xFFFF * 2 ^ param s f 1 < 2 ^ 31 /\ param2 c s f 4 * 2 ^ param s f 1 < 2 ^ 31.
Definition seed_rule (c : cfg) (e : env) (s : st) (f : list N) : Prop :=
  let r := param s f 2 in ~ programming s -> has_resource c r -> locked c r s -> e_seed e r <> [].
Definition mode_rule (c : cfg) (s : st) (f : list N) : Prop :=
  ~ measuring s -> ~ programming s -> ~ locked c 4 s -> N.land (param s f 1) 3 = 0 -> param s f 6 <= 1 ->
  param2 c s f 4 < lenN (c_events c).

(** The main function continues a block upload or a checksum. *)
Definition main_rule (c : cfg) (e : env) (s : st) : Prop :=
  (c_sbm c = true -> s_sact s = true -> readable c e (s_mext s) (s_maddr s) (N.min (s_srem s) (c_max_cto c - 1))) /\
  (c_opt c 0xF3 = true -> c_chunked c = true ->
     match j_state (s_job s) with
     | JIdle => True
     | JFinal => in_space c (j_addr (s_job s)) (j_size (s_job s))
     | _ => in_space c (j_addr (s_job s)) (c_chunk c)
     end).

(** List numbers in pools below 256 entities are 8 bits wide. *)
Definition list_param (c : cfg) (s : st) (f : list N) : N :=
  let n := param2 c s f 2 in if c_max_ent c <? 256 then n mod 256 else n.

(** Configurations in which DAQ tables are in order and the commands that change
    or use them stay inside. *)
Definition daq_rule (c : cfg) (s : st) (f : list N) (k : N) : Prop :=
  daq_open c s -> exists t, represents c s t /\
  match k with
  | 0xD8 => list_param c s f < lenN t
  | 0xD4 => list_param c s f < lenN t
  | 0xD3 => odt_at t (list_param c s f) (param s f 4) <> None
  | 0xE1 => ~ measuring s -> entry_at t (d_plist (s_daq s)) (d_podt (s_daq s)) (d_pent (s_daq s)) <> None
  | 0xC7 => ~ measuring s -> param s f 1 * 8 + 2 <= c_max_cto c -> forall i, i < param s f 1 ->
            entry_at t (d_plist (s_daq s)) (d_podt (s_daq s)) (d_pent (s_daq s) + i) <> None
  | _ => True
  end.
(** Those commands. *)
Definition daq_codes : list N := [0xE2; 0xE1; 0xDE; 0xD8; 0xD5; 0xD4; 0xD3; 0xC7].

(** An event finds its list in order, entries of a size that fits, and room in the
    queue (or an unused queue). *)
Definition trigger_rule (c : cfg) (e : env) (s : st) (ev : N) : Prop :=
  measuring s -> exists t, represents c s t /\
  forall l os, assigned s ev l -> getN t l = Some os ->
    sampleable c (time_stamp c e s) os /\ (used s + lenN os <= 4 \/ used s = 0).

(** The rule for a command frame that is executed. *)
Definition command_rule (c : cfg) (e : env) (s : st) (f : list N) (k : N) : Prop :=
  let cal := c_cal c = true in let opt := c_opt c k = true in
  match k with
  | 0xF8 => opt -> seed_rule c e s f
  | 0xF5 => opt -> upload_rule c e s f
  | 0xF4 => opt -> short_upload_rule c e s f
  | 0xF3 => opt -> checksum_rule c e s f
  | 0xF0 => cal -> download_rule c e s f
  | 0xEF => cal -> opt -> download_next_rule c e s f
  | 0xEE => cal -> opt -> download_max_rule c e s
  | 0xED => cal -> opt -> short_download_rule c e s f
  | 0xEC => cal -> opt -> modify_rule c e s f
  | 0xE0 => c_daq c = true -> mode_rule c s f
  | 0xE2 | 0xE1 | 0xDE => c_daq c = true -> daq_rule c s f k
  | 0xD8 | 0xD5 | 0xD4 | 0xD3 | 0xC7 => c_daq c = true -> opt -> daq_rule c s f k
  | _ => 0xC7 <= k
  end.
(** The rule for an operation, and for a series of operations. *)
Definition rule (c : cfg) (e : env) (s : st) (x : op) : Prop :=
  match x with
  | ORecv [] => True
  | ORecv (k :: t) => lenN (k :: t) <= c_ctobuf c /\ (ready s -> command_rule c e s (k :: t) k)
  | OMain => main_rule c e s
  | OTrigger ev => trigger_rule c e s ev
  | _ => True
  end.
Fixpoint abides (c : cfg) (l : list (env * op)) (s : st) : Prop :=
  match l with
  | [] => True
  | (e, x) :: r => rule c e s x /\ forall s' o, step c e x s = Ok (s', o) -> abides c r s'
  end.
