(** Vocabulary for the serial transport layer (C56-C58). *)
From Coq Require Import NArith List Bool.
From Verif Require Import Base Sxi.
Import ListNotations.
Open Scope N_scope.

(** A frame on the wire: length, counter, contents. *)
Record sframe := mkFrame { f_ctr0 : N; f_ctr1 : N; f_data : list N }.
Definition wire (f : sframe) : list N :=
  [lenN (f_data f) mod 256; lenN (f_data f) / 256; f_ctr0 f; f_ctr1 f] ++ f_data f.
Definition wires (fs : list sframe) : list N := concat (map wire fs).

(** The frame fits a receive buffer of [n] bytes, and consists of bytes. *)
Definition fits (n : N) (f : sframe) : Prop :=
  lenN (f_data f) + 4 <= n /\ Forall (fun b => b < 256) (wire f).

(** The bytes the calls find, in order. *)
Definition octets (l : list poll) : list N :=
  flat_map (fun p => match p_byte p with Some b => [b] | None => [] end) l.

(** Time of the last byte; [last] if there is none. *)
Fixpoint last_byte (last : N) (l : list poll) : N :=
  match l with
  | [] => last
  | p :: t => last_byte (match p_byte p with Some _ => p_time p | None => last end) t
  end.

(** Milliseconds from [a] to [b] on a 32-bit clock. *)
Definition elapsed (a b : N) : N := (b + (2 ^ 32 - a)) mod 2 ^ 32.

(** No time-out check comes late: the time since the last byte is at most the clock
    reading at that byte (this is the limit the code applies, see C58). *)
Fixpoint quiet (last : N) (l : list poll) : Prop :=
  match l with
  | [] => True
  | p :: t =>
      let last' := match p_byte p with Some _ => p_time p | None => last end in
      elapsed last' (p_check p) <= last' /\ quiet last' t
  end.

(** Commands the frames lead to, for a buffer whose contents part holds [prev]: each
    with its length and its contents, followed by what is left from before. *)
Fixpoint commands (prev : list N) (fs : list sframe) : list (N * list N) :=
  match fs with
  | [] => []
  | f :: t => let d := f_data f ++ dropN (lenN (f_data f)) prev in (lenN (f_data f), d) :: commands d t
  end.

(** What a command processor that honours the length gets to see. *)
Definition seen (x : N * list N) : list N := takeN (fst x) (snd x).
