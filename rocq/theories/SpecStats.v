(** Vocabulary for the statistics (C113). *)
From Coq Require Import NArith ZArith List Bool.
From Verif Require Import Base Config State Core Stats.
Import ListNotations.
Open Scope N_scope.

(** A response ERR_CMD_BUSY. *)
Definition is_busy (p : pkt) : bool := negb (p_dto p) && (nth 0 (p_data p) 0 =? 0xFE) && (nth 1 (p_data p) 0 =? 0x10).
Definition busy_answers (o : list pkt) : N := lenN (filter is_busy o).
(** A response, positive or negative. *)
Definition is_response (p : pkt) : bool := negb (p_dto p) && ((nth 0 (p_data p) 0 =? 0xFF) || (nth 0 (p_data p) 0 =? 0xFE)).
(** Commands that have arrived. *)
Definition is_command (x : env * op) : bool := match snd x with ORecv (_ :: _) => true | _ => false end.
Definition commands (l : list (env * op)) : N := lenN (filter is_command l).
(** The number between -2^31 and 2^31 - 1 that equals [n] modulo 2^32. *)
Definition as_int (n : N) : Z := ((Z.of_N n + 2 ^ 31) mod 2 ^ 32 - 2 ^ 31)%Z.
(** The three numbers for the given counts. *)
Definition info_of (ctos busy send : N) : shown := mkShown (as_int ctos) (as_int busy) (as_int send).
