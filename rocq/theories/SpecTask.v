(** The reference slave of SpecRef.v with what takes more than one request: uploads
    and downloads in blocks, checksums over several calls of the main function. *)
From Coq Require Import NArith List Bool.
From Verif Require Import Base Config Checksum State Core Spec SpecProt SpecMem SpecDaq SpecE2e SpecInfo SpecCks SpecRef.
Import ListNotations.
Open Scope N_scope.

(** ** Requests *)

(** Those of SpecRef.v, the first frame of a download of [n] bytes, and a further
    one when [n] bytes are missing. *)
Inductive treq :=
| Plain (q : req)
| QBlock (n : N) (bs : list N)
| QNext (n : N) (bs : list N).
Definition tframe (c : cfg) (q : treq) : list N :=
  match q with Plain q => frame c q | QBlock n bs => 0xF0 :: n :: bs | QNext n bs => 0xEF :: n :: bs end.
Definition toperation (c : cfg) (q : treq) : op := match q with Plain q => operation c q | _ => ORecv (tframe c q) end.
Definition tencodable (c : cfg) (q : treq) : Prop :=
  match q with
  | Plain q => encodable c q
  | QBlock n bs | QNext n bs => n < 256 /\ bytes bs /\ lenN bs <= c_max_cto c - 2
  end.
(** A command of the master. *)
Definition commands (q : treq) : Prop :=
  match q with
  | Plain (QEvent _) | Plain QMain | Plain (QVariables _ _) | Plain (QNotice _ _) | Plain (QService _ _) | Plain (QOther []) => False
  | _ => True
  end.
(** What the application does besides calling the main function. *)
Definition beside (q : req) : Prop := match q with QEvent _ | QVariables _ _ | QNotice _ _ | QService _ _ => True | _ => False end.

(** ** Tasks *)

(** Nothing; an upload of which [n] bytes are left to send; a checksum of the
    [n] bytes from [b] on, of which [r] have been read; a download of which [n] bytes
    are left to arrive. *)
Inductive task := Free | Sending (n : N) | Summing (b n : N) (r : list N) | Taking (n : N).
Definition busy (t : task) : Prop := match t with Sending _ | Summing _ _ _ => True | _ => False end.
Definition to_send (n : N) : task := if n =? 0 then Free else Sending n.
Definition to_take (n : N) : task := if n =? 0 then Free else Taking n.

(** ** Behaviour *)
Inductive task_step (c : cfg) (e : env) (a : ref) : task -> treq -> list reply -> ref -> task -> Prop :=
| t_free : forall q rs a', ref_step c e a q rs a' -> task_step c e a Free (Plain q) rs a' Free
(* uploads in blocks *)
| t_upload : forall n x b, idle a -> c_opt c 0xF5 = true -> c_sbm c = true -> c_lock c = LockRecursive -> a_mta a = Some (x, b) ->
    granted c e x b n false false -> 1 <= n -> let k := N.min (full c) n in in_space c (target c e x b) k ->
    task_step c e a Free (Plain (QUpload n)) [Data (0xFF :: mem_at (a_mem a) (target c e x b) k)]
      (to_mta (Some (x, (b + k) mod aspace c)) a) (to_send (n - k))
| t_short_upload : forall n x b, idle a -> c_opt c 0xF4 = true -> c_sbm c = true -> c_lock c = LockRecursive ->
    (forall y d, granted c e y d n false false) -> 1 <= n < c_max_cto c -> in_space c (target c e x b) n ->
    task_step c e a Free (Plain (QShortUpload n x b)) [Data (0xFF :: mem_at (a_mem a) (target c e x b) n)]
      (to_mta (Some (x, (b + n) mod aspace c)) a) Free
| t_send : forall n x b, c_sbm c = true -> c_lock c = LockRecursive -> a_mta a = Some (x, b) ->
    let k := N.min (full c) n in in_space c (target c e x b) k ->
    task_step c e a (Sending n) (Plain QMain) [Data (0xFF :: mem_at (a_mem a) (target c e x b) k)]
      (to_mta (Some (x, (b + k) mod aspace c)) a) (to_send (n - k))
(* checksums over several calls of the main function *)
| t_checksum : forall n x b, idle a -> c_opt c 0xF3 = true -> c_lock c = LockRecursive -> a_mta a = Some (x, b) -> target c e x b = b ->
    granted c e x b n false false -> within_limit c n -> c_chunked c = true -> 2 * c_chunk c <= n -> composes (c_cks c) (c_chunk c) -> in_space c b n ->
    task_step c e a Free (Plain (QChecksum n)) [] (to_mta None a) (Summing b n [])
| t_sum : forall b n r, lenN r < 2 * c_chunk c \/ lenN r + c_chunk c < n ->
    task_step c e a (Summing b n r) (Plain QMain) [] a (Summing b n (r ++ mem_at (a_mem a) (b + lenN r) (c_chunk c)))
| t_sum_last : forall b n r, c_lock c = LockRecursive -> 2 * c_chunk c <= lenN r -> n <= lenN r + c_chunk c ->
    let bs := r ++ mem_at (a_mem a) (b + lenN r) (n - lenN r) in
    task_step c e a (Summing b n r) (Plain QMain) [Response (checksum_answer (c_cks c) (checksum_spec (c_cks c) (c_host_be c) bs))] a Free
(* downloads in blocks *)
| t_block : forall n bs x b t, t = Free \/ (exists i, t = Taking i) -> idle a -> c_cal c = true -> c_mbm c = true -> ~ shut c 1 a -> a_mta a = Some (x, b) ->
    c_buf_addr c + 2 < 2 ^ 32 -> granted c e x b n true false -> lenN bs = c_max_cto c - 2 -> lenN bs < n <= c_max_bs c * (c_max_cto c - 2) ->
    target c e x b <> 0 -> in_space c (target c e x b) (lenN bs) ->
    task_step c e a t (QBlock n bs) [] (to_mta (Some (x, (b + lenN bs) mod aspace c)) (to_mem (patch (a_mem a) (target c e x b) bs) a)) (Taking (n - lenN bs))
| t_next : forall n bs x b, idle a -> c_cal c = true -> c_opt c 0xEF = true -> ~ shut c 1 a -> a_mta a = Some (x, b) ->
    c_buf_addr c + 2 < 2 ^ 32 -> lenN bs = N.min n (c_max_cto c - 2) -> target c e x b <> 0 -> in_space c (target c e x b) (lenN bs) ->
    task_step c e a (Taking n) (QNext n bs) (if n =? lenN bs then done else [])
      (to_mta (Some (x, (b + lenN bs) mod aspace c)) (to_mem (patch (a_mem a) (target c e x b) bs) a)) (to_take (n - lenN bs))
(* meanwhile *)
| t_busy : forall q t, busy t -> commands q -> task_step c e a t q (fails 0x10) a t
| t_beside : forall q rs a' t, t <> Free -> beside q -> ref_step c e a q rs a' -> task_step c e a t (Plain q) rs a' t
| t_main : forall n, task_step c e a (Taking n) (Plain QMain) [] a (Taking n)
| t_leave : forall q rs a' n, commands (Plain q) -> ref_step c e a q rs a' -> task_step c e a (Taking n) (Plain q) rs a' Free.

Inductive task_run (c : cfg) : ref -> task -> list (env * treq) -> list reply -> ref -> task -> Prop :=
| tt_nil : forall a t, task_run c a t [] [] a t
| tt_cons : forall a t e q rs a1 t1 l rs' a2 t2, wf_env c e -> tencodable c q -> task_step c e a t q rs a1 t1 -> task_run c a1 t1 l rs' a2 t2 ->
    task_run c a t ((e, q) :: l) (rs ++ rs') a2 t2.
Definition toperations (c : cfg) (l : list (env * treq)) : list (env * op) := map (fun x => (fst x, toperation c (snd x))) l.

(** ** What the states have in common *)

(** [s] without an upload or checksum under way. *)
Definition hushed (s : st) : st := set_s_busy false (set_s_sact false (upd_job (set_j_state JIdle) s)).
(** The job when the bytes [r] of [n] have been read. *)
Definition job_is (c : cfg) (b n : N) (r : list N) (j : jobst) : Prop :=
  let k := c_chunk c in
  1 <= k /\ 2 * k <= n < 2 ^ 32 /\ lenN r <= n /\ lenN r mod k = 0 /\ bytes r /\ composes (c_cks c) k /\ in_space c b n /\
  j_size j = n - lenN r /\ j_addr j = (b + lenN r) mod aspace c /\
  j_state j = (if lenN r =? 0 then JInit else if (2 * k <=? lenN r) && (n <=? lenN r + k) then JFinal else JRem) /\
  (r <> [] -> j_sum j = calc (c_cks c) (c_host_be c) r 0 true).
Definition trelated (c : cfg) (a : ref) (t : task) (s : st) : Prop :=
  match t with
  | Free => related c a s
  | Sending n => related c a (hushed s) /\ a_on a = true /\ s_busy s = true /\ s_sact s = true /\ s_srem s = n /\ no_job s /\ 1 <= n < 256
  | Summing b n r => related c a (hushed s) /\ a_on a = true /\ s_busy s = true /\ s_sact s = false /\ c_opt c 0xF3 = true /\ c_chunked c = true /\ job_is c b n r (s_job s)
  | Taking n => related c a s /\ s_mact s = true /\ s_mrem s = n /\ 1 <= n < 256
  end.
