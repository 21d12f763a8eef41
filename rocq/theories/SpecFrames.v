(** Vocabulary for the frame properties: a receiver of the byte stream. *)
From Coq Require Import NArith List Bool.
From Verif Require Import Base Config State.
Import ListNotations.
Open Scope N_scope.

(** Reads [k] bytes as a little-endian number. *)
Definition take_le (k : nat) (bs : list N) : option (N * list N) :=
  if Nat.leb k (length bs) then Some (le_value (firstn k bs), skipn k bs) else None.

(** A receiver splits the byte stream by the length fields: it reads the length,
    the counter and then as many bytes as the length says.  [fuel]: an upper bound
    of the number of frames. *)
Fixpoint decode (c : cfg) (fuel : nat) (bs : list N) : option (list (N * list N)) :=
  match bs with
  | [] => Some []
  | _ =>
      match fuel with
      | O => None
      | S k =>
          match take_le (N.to_nat (c_len_size c)) bs with
          | None => None
          | Some (len, t) =>
              match take_le (N.to_nat (c_ctr_size c)) t with
              | None => None
              | Some (ctr, t) =>
                  if Nat.leb (N.to_nat len) (length t) then
                    match decode c k (skipn (N.to_nat len) t) with
                    | Some r => Some ((ctr, firstn (N.to_nat len) t) :: r)
                    | None => None
                    end
                  else None
              end
          end
      end
  end.

(** The payloads with their running numbers, as far as the counter field shows them. *)
Fixpoint numbered (c : cfg) (n : N) (o : list pkt) : list (N * list N) :=
  match o with [] => [] | p :: t => (n mod 256 ^ c_ctr_size c, p_data p) :: numbered c (n + 1) t end.

(** Identification (address and length) that GET_ID reports for a request type. *)
Definition ident (c : cfg) (e : env) (ty : N) : option (N * N) :=
  if ty =? 0 then Some (c_id0 c) else if ty =? 1 then Some (c_id1 c) else if c_idhook c then e_getid e ty else None.
