(** Vocabulary of the property statements that does not depend on how the model
    computes: byte strings, frames on the wire, well-formed runs. *)
From Coq Require Import NArith List Bool.
From Verif Require Import Base Config Codec State Core.
Import ListNotations.
Open Scope N_scope.

Definition bytes (l : list N) : Prop := Forall (fun b => b < 256) l.

(** A frame on the wire: payload of 1 .. MAX bytes, preceded by its length and
    the frame counter [n], both little endian in fields of the configured size. *)
Definition frame_ok (c : cfg) (n : N) (p : pkt) : Prop :=
  1 <= lenN (p_data p) <= (if p_dto p then c_max_dto c else c_max_cto c) /\
  p_hdr p = le_bytes (N.to_nat (c_len_size c)) (lenN (p_data p)) ++ le_bytes (N.to_nat (c_ctr_size c)) n /\
  bytes (wire p).

(** The frames of [o] carry the consecutive counters [n], [n+1], ... *)
Definition frames_from (c : cfg) (n : N) (o : list pkt) : Prop :=
  forall i p, nth_error o i = Some p -> frame_ok c (n + N.of_nat i) p.

(** Operations whose arguments are values of the C types involved (bytes are
    below 256, addresses fit a pointer, hooks return values of their type). *)
Definition wf_op (c : cfg) (x : env * op) : Prop :=
  wf_env c (fst x) /\
  match snd x with
  | ORecv f => bytes f
  | OEvent code info | OService code info => code < 256 /\ bytes info
  | OAppWrite a bs => bytes bs
  | OSetMta ext addr => ext < 256 /\ addr < aspace c
  | OTrigger ev => ev < 256
  | _ => True
  end.
Definition wf_run (c : cfg) (l : list (env * op)) : Prop := Forall (wf_op c) l.
Definition wf_mem (m : mem) : Prop := forall a, m a < 256.

(** [s] is reached, after the operations [l] and having sent the frames [o], from
    power-on of configuration [c] with memory contents [m]. *)
Definition reachable (c : cfg) (m : mem) (l : list (env * op)) (s : st) (o : list pkt) : Prop :=
  wf_cfg c /\ wf_mem m /\ wf_run c l /\ reaches c m l s o.

(** Command byte of a frame. *)
Definition is_cmd (k : N) (f : list N) : Prop := hd_error f = Some k.

(** Frames of exactly eight bytes if CAN requires the maximum length. *)
Definition dlc_ok (c : cfg) : Prop := c_max_dlc c = true -> c_max_cto c = 8.

(** A response filled up with zeros where CAN requires it. *)
Definition padded (c : cfg) (bs : list N) : list N :=
  if c_max_dlc c then bs ++ repeat 0 (8 - length bs) else bs.

(** The slave sent exactly one command-channel frame with this payload. *)
Definition sends (o : list pkt) (bs : list N) : Prop :=
  exists p, o = [p] /\ p_dto p = false /\ p_data p = bs.

(** [s] and [s'] agree on everything but the receive and transmit buffers, the
    frame counter and the statistics. *)
Definition same_session (s s' : st) : Prop :=
  s_conn s' = s_conn s /\ s_busy s' = s_busy s /\ s_pgm s' = s_pgm s /\
  s_prot s' = s_prot s /\ s_seed s' = s_seed s /\
  s_mext s' = s_mext s /\ s_maddr s' = s_maddr s /\
  s_sact s' = s_sact s /\ s_srem s' = s_srem s /\ s_mact s' = s_mact s /\ s_mrem s' = s_mrem s /\
  s_held s' = s_held s /\ s_mem s' = s_mem s /\ s_daq s' = s_daq s /\ s_job s' = s_job s.

(** ** Sessions *)

(** Payload of the positive response to CONNECT (XCP part 2, 1.6.1.1.1): resource,
    basic communication mode, MAX_CTO, MAX_DTO, protocol and transport version. *)
Definition connect_response (c : cfg) : list N :=
  [0xFF;
   (if c_cal c then 1 else 0) + (if c_daq c then 4 else 0) + (if c_pgm c then 16 else 0);
   (if c_motorola c then 1 else 0) + c_gran c + (if c_sbm c then 64 else 0) + (if c_opt c 0xFB then 128 else 0);
   c_max_cto c; c_max_dto c mod 256; c_max_dto c / 256; 1; 1].

(** Command codes a build implements. *)
Definition implemented (c : cfg) (k : N) : bool :=
  let is l := existsb (N.eqb k) l in
  is [0xFF; 0xFE; 0xFD; 0xFC] ||
  is [0xFB; 0xFA; 0xF8; 0xF7; 0xF6; 0xF5; 0xF4; 0xF3; 0xF2; 0xF1] && c_opt c k ||
  is [0xF0] && c_cal c ||
  is [0xEF; 0xEE; 0xED; 0xEC] && c_cal c && c_opt c k ||
  is [0xE3; 0xE2; 0xE1; 0xE0; 0xDF; 0xDE; 0xDD] && c_daq c ||
  is [0xDC; 0xDA; 0xD9; 0xD8; 0xD7; 0xD6; 0xD5; 0xD4; 0xD3; 0xC7] && c_daq c && c_opt c k ||
  is [0xD2; 0xD1; 0xD0; 0xCF] && c_pgm c ||
  is [0xCE; 0xCD; 0xCC; 0xCB; 0xCA; 0xC9; 0xC8] && c_pgm c && c_opt c k.

(** A command response: positive (0xFF) or error (0xFE). *)
Definition resp (p : pkt) : Prop :=
  p_dto p = false /\ (hd_error (p_data p) = Some 0xFF \/ hd_error (p_data p) = Some 0xFE).

(** Contents of the receive buffer after the frame [f] has arrived: short frames
    leave the rest of the previous contents in place. *)
Definition rxbuf (s : st) (f : list N) : list N := f ++ skipn (length f) (s_in s).

(** Commands that are deliberately not answered (now): USER_CMD, the CAN
    sub-command SET_DAQ_ID, a DOWNLOAD or DOWNLOAD_NEXT that does not complete a
    block, and a checksum computed in the background.  [b]: receive buffer. *)
Definition silent (c : cfg) (k : N) (b : list N) (s s' : st) : Prop :=
  k = 0xF1 \/
  (k = 0xF2 /\ gb b 1 = 0xFD) \/
  (k = 0xF0 /\ c_mbm c = true /\ c_dl c < gb b 1) \/
  (k = 0xEF /\ s_mact s = true /\ s_mrem s' <> 0) \/
  (k = 0xF3 /\ c_chunked c = true /\ c_chunk c < gd c b 4).

(** ** Commands *)

(** Connected and not busy: commands are dispatched. *)
Definition ready (s : st) : Prop := s_conn s = true /\ s_busy s = false.

(** On receiving [f] in [s] the slave sends one command-channel frame with payload
    [bs] (zero-padded where CAN requires it) and the session becomes that of [s1]. *)
Definition answers (c : cfg) (e : env) (f : list N) (s : st) (bs : list N) (s1 : st) : Prop :=
  exists s' o, step c e (ORecv f) s = Ok (s', o) /\ sends o (padded c bs) /\ same_session s1 s'.

(** The slave answers with error [code] and nothing of the session changes. *)
Definition refuses (c : cfg) (e : env) (f : list N) (s : st) (code : N) : Prop :=
  answers c e f s [0xFE; code] s.

(** Conditions that make commands fail. *)
Definition programming (s : st) : Prop := s_pgm s = PgmActive.
Definition locked (c : cfg) (r : N) (s : st) : Prop := c_protect c = true /\ N.land (s_prot s) r = r.
Definition measuring (s : st) : Prop := d_run (s_daq s) = true.

(** The access hook, where compiled in, agrees. *)
Definition granted (c : cfg) (e : env) (ext addr len : N) (write pgm : bool) : Prop :=
  c_chkmem c = true -> e_access e ext addr len write pgm = true.

(** Value of a multi-byte field in the byte order announced by CONNECT. *)
Definition field (c : cfg) (bs : list N) : N := if c_motorola c then be_value bs else le_value bs.

(** [n] bytes of a buffer from offset [i] on. *)
Definition at_ (b : list N) (i n : nat) : list N := firstn n (skipn i b).
