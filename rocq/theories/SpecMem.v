(** Vocabulary of the memory properties. *)
From Coq Require Import NArith List Bool.
From Verif Require Import Base Config Codec State Core Spec.
Import ListNotations.
Open Scope N_scope.

(** The [n] bytes at [a], [a+1], ... *)
Definition mem_at (m : mem) (a n : N) : list N := map (fun i => m (a + N.of_nat i)) (seq 0 (N.to_nat n)).

(** [m'] is [m] with the bytes [bs] at [a], [a+1], ... and nothing else changed. *)
Definition wrote (m : mem) (a : N) (bs : list N) (m' : mem) : Prop :=
  forall x, m' x = if (a <=? x) && (x <? a + lenN bs) then nth (N.to_nat (x - a)) bs 0 else m x.

(** Address that the mapper hook, where compiled in, gives for [a]. *)
Definition target (c : cfg) (e : env) (ext a : N) : N := if c_mapper c then e_map e ext a else a.

(** [n] bytes from [b] on lie in the address space. *)
Definition in_space (c : cfg) (b n : N) : Prop := b + n <= aspace c.

(** The session of [s] with another MTA; addresses wrap as pointers do. *)
Definition mta_at (c : cfg) (ext a : N) (s : st) : st := set_s_maddr (a mod aspace c) (set_s_mext ext s).
Definition advanced (c : cfg) (n : N) (s : st) : st := mta_at c (s_mext s) (s_maddr s + n) s.

(** One command-channel frame that starts with [bs].  Where CAN requires frames
    of maximum length it is longer than that, by bytes not said to be zero. *)
Definition sends_data (c : cfg) (o : list pkt) (bs : list N) : Prop :=
  exists p pad, o = [p] /\ p_dto p = false /\ p_data p = bs ++ pad /\
    lenN pad = if c_max_dlc c then c_max_cto c - lenN bs else 0.

(** On receiving [f] in [s] the slave sends such a frame and the session becomes
    that of [s1]. *)
Definition delivers (c : cfg) (e : env) (f : list N) (s : st) (bs : list N) (s1 : st) : Prop :=
  exists s' o, step c e (ORecv f) s = Ok (s', o) /\ sends_data c o bs /\ same_session s1 s'.

(** On receiving [f] in [s] the slave stores [bs] at [b] and sends [o']; the
    session becomes that of [s1] but for the memory. *)
Definition stores (c : cfg) (e : env) (f : list N) (s : st) (b : N) (bs : list N) (s1 : st) (ans : list pkt -> Prop) : Prop :=
  exists s' o m', step c e (ORecv f) s = Ok (s', o) /\ ans o /\ wrote (s_mem s) b bs m' /\ same_session (set_s_mem m' s1) s'.

(** Execution ends in undefined behaviour or in a failed assertion. *)
Definition breaks (c : cfg) (e : env) (f : list N) (s : st) (w : why) : Prop := step c e (ORecv f) s = UB w.

(** ** Block transfers *)

(** Frames with a positive response on the command channel, and the bytes that
    follow the 0xFF in them, joined. *)
Definition positive (p : pkt) : bool := negb (p_dto p) && match p_data p with b :: _ => b =? 0xFF | [] => false end.
Definition payload (o : list pkt) : list N := concat (map (fun p => tl (p_data p)) (filter positive o)).

(** Number of main-function calls in a run. *)
Definition mains (l : list (env * op)) : N := lenN (filter (fun x => match snd x with OMain => true | _ => false end) l).

(** Operations that may come between the frames of a block upload: anything the
    master sends, main-function calls, measurement events, event and service
    packets. *)
Definition may_interleave (x : env * op) : Prop :=
  match snd x with ORecv _ | OMain | OTrigger _ | OEvent _ _ | OService _ _ => True | _ => False end.

(** The mapper takes [n] addresses from [a] on to [b], [b+1], ... *)
Definition maps_block (c : cfg) (ext a n b : N) (e : env) : Prop :=
  forall i, i < n -> target c e ext ((a + i) mod aspace c) = b + i.

(** Bytes of data in a full frame of a block upload. *)
Definition full (c : cfg) : N := c_max_cto c - 1.

(** No checksum is being computed in the background. *)
Definition no_job (s : st) : Prop := j_state (s_job s) = JIdle.

(** [s] is [s0] during a block upload of [n] bytes, [d] of which have been
    delivered: busy until the end, the MTA moved by [d], memory, programming
    state, protection and DAQ configuration untouched. *)
Record upl (s0 : st) (c : cfg) (n d : N) (s : st) : Prop := mkU {
  u_conn : s_conn s = true;
  u_busy : s_busy s = (d <? n);
  u_act : s_sact s = (d <? n);
  u_rem : s_srem s = n - d;
  u_ext : s_mext s = s_mext s0;
  u_addr : s_maddr s = (s_maddr s0 + d) mod aspace c;
  u_mem : s_mem s = s_mem s0;
  u_job : no_job s;
  u_rest : s_pgm s = s_pgm s0 /\ s_prot s = s_prot s0 /\ s_seed s = s_seed s0 /\ s_mact s = s_mact s0 /\ s_mrem s = s_mrem s0 /\
           exists q, s_daq s = set_d_q q (s_daq s0)
}.

(** Outside a block download; after one of [n] bytes. *)
Definition idle_block (c : cfg) (s : st) : st := if c_mbm c then set_s_mact false s else s.
Definition block_done (c : cfg) (n : N) (s : st) : st := set_s_mrem 0 (set_s_mact false (advanced c n s)).

(** DOWNLOAD_NEXT frames that carry [data], at most [dl] bytes each, with the
    number of bytes still to come in byte 1; anything may follow the data. *)
Inductive next_frames (dl : N) : list N -> list (list N) -> Prop :=
| nf_last : forall data pad, 1 <= lenN data <= dl -> next_frames dl data [0xEF :: lenN data :: data ++ pad]
| nf_more : forall d rest pad fs, lenN d = dl -> next_frames dl rest fs ->
    next_frames dl (d ++ rest) ((0xEF :: lenN (d ++ rest) :: d ++ pad) :: fs).

(** ** MODIFY_BITS *)

(** The 32-bit word at [a] in the byte order of the target. *)
Definition host_word (c : cfg) (m : mem) (a : N) : N :=
  if c_host_be c then be_value (mem_at m a 4) else le_value (mem_at m a 4).

(** XCP part 2, MODIFY_BITS: A = (A and not(not MA << S)) xor (MX << S). *)
Definition modify_spec (v sh am xm : N) : N :=
  N.lxor (N.ldiff v (N.shiftl (N.lxor am 0xFFFF) sh)) (N.shiftl xm sh).

(** ** Complete frames *)

(** Number of bytes that a command [k] with byte 1 equal to [n] consists of, from
    the command code to its last parameter. *)
Definition need (c : cfg) (k n : N) : N :=
  match k with
  | 0xFF | 0xFA | 0xF5 | 0xDD | 0xD0 => 2
  | 0xF8 | 0xCD => 3
  | 0xE3 | 0xDF | 0xDE | 0xD8 | 0xD7 | 0xD5 => 4
  | 0xD4 => 5
  | 0xF2 | 0xEC | 0xE2 | 0xD3 => 6
  | 0xF6 | 0xF4 | 0xF3 | 0xE1 | 0xE0 => 8
  | 0xF7 => 2 + n                                          (* UNLOCK: key of n bytes           *)
  | 0xF0 | 0xEF => 2 + N.min n (c_max_cto c - 2)           (* DOWNLOAD, DOWNLOAD_NEXT          *)
  | 0xEE => c_max_cto c                                    (* DOWNLOAD_MAX                     *)
  | 0xED => 8 + N.min n (c_max_cto c - 8)                  (* SHORT_DOWNLOAD                   *)
  | 0xC7 => N.min (2 + 8 * n) (c_max_cto c)                (* WRITE_DAQ_MULTIPLE of n elements *)
  | _ => 1
  end.

(** The frame contains the whole command. *)
Definition complete (c : cfg) (f : list N) : Prop :=
  1 <= lenN f /\ need c (nth 0 f 0) (nth 1 f 0) <= lenN f.

(** The key hook looks at the announced number of key bytes only. *)
Definition key_local (e : env) : Prop :=
  forall r n k k', firstn (N.to_nat n) k = firstn (N.to_nat n) k' -> e_unlock e r n k = e_unlock e r n k'.

(** Same outcome but for the contents of the receive buffer. *)
Definition same_but_rx (r r' : res) : Prop :=
  match r, r' with
  | Ok (s, o), Ok (s', o') => o' = o /\ s' = set_s_in (s_in s') s
  | UB w, UB w' => w' = w
  | _, _ => False
  end.
