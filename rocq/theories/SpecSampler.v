(** What the frames of an event may be expected to contain, whatever happens meanwhile. *)
From Coq Require Import NArith List Bool.
From Verif Require Import Base Config State Core Spec SpecMem SpecDaq Sampler.
Import ListNotations.
Open Scope N_scope.

(** Operations that leave a running measurement alone: all but those that start,
    stop or allocate, end the session, or signal another event. *)
Definition harmless (c : cfg) (u : turn) : Prop :=
  match u with
  | Go => True
  | Other e (ORecv (k :: f)) => bytes (k :: f) /\ ~ In k [0xFE; 0xF7; 0xDE; 0xDD; 0xD6; 0xD5; 0xD4; 0xD3]
  | Other e (OTrigger _) | Other e ODisconnect | Other e OInit => False
  | Other e _ => True
  end.

(** Contents of memory at each moment of a run. *)
Fixpoint moments (c : cfg) (w : list turn) (x : sampler) (s : st) : list mem :=
  s_mem s :: match w with
             | [] => []
             | u :: w' => match take c u x s with Ok (x1, s1, _) => moments c w' x1 s1 | UB _ => [] end
             end.

(** The bytes [bs] of the entry [x] (address, size): each one in memory at a moment of [ms]. *)
Definition taken (ms : mem -> Prop) (x : N * N) (bs : list N) : Prop :=
  lenN bs = snd x /\ forall j b, getN bs j = Some b -> exists m, ms m /\ b = m (fst x + j).
(** A frame with identifier [pid], time stamp [ts] and the entries [es]. *)
Definition captured (ms : mem -> Prop) (ts : list N) (pid : N) (es : list (N * N)) (f : list N) : Prop :=
  exists parts, f = pid mod 256 :: ts ++ concat parts /\ Forall2 (taken ms) es parts.
(** One frame for each ODT of [os], the first one with the time stamp. *)
Definition captures (ms : mem -> Prop) (ts : list N) (pid : N) (os : list (list (N * N))) (fs : list (list N)) : Prop :=
  lenN fs = lenN os /\
  forall i es f, getN os i = Some es -> getN fs i = Some f -> captured ms (if i =? 0 then ts else []) (pid + i) es f.

(** The frames of measurements among those that were sent. *)
Definition daq_frames (o : list pkt) : list (list N) := map p_data (filter p_dto o).
(** Operations of other threads. *)
Definition others (w : list turn) : list (env * op) := flat_map (fun u => match u with Go => [] | Other e o => [(e, o)] end) w.
(** Number of accesses of the sampling thread. *)
Definition accesses (w : list turn) : N := lenN (filter (fun u => match u with Go => true | _ => false end) w).
