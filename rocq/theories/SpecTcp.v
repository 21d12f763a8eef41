(** Vocabulary for the TCP main loop (C110, C111). *)
From Coq Require Import NArith List Bool.
From Verif Require Import Base Config State Core Spec SpecFrames Eth SpecSxi SpecEth Net Tcp.
Import ListNotations.
Open Scope N_scope.

(** The commands [fs], the first of them in environment [E k]. *)
Fixpoint commands (E : N -> env) (k : N) (fs : list (list N)) : list (env * op) :=
  match fs with [] => [] | f :: t => (E k, ORecv f) :: commands E (k + 1) t end.

(** A peer and the frames that it sends. *)
Definition visit := (N * list sframe)%type.
Definition said (v : visit) : list (list N) := map f_data (snd v).
(** The peer sends its frames, in portions that do not end inside of a header. *)
Definition carries (blen cbuf : N) (v : visit) (cs : list (list N)) : Prop :=
  Forall (sendable blen cbuf) (snd v) /\ portions cs /\ concat cs = wires (snd v) /\ headers_whole (snd v) cs.
(** ... and closes the connection. *)
Definition finished (blen cbuf : N) (v : visit) (q : conn) : Prop :=
  exists cs, carries blen cbuf v cs /\ q = mkConn (fst v) (map Data cs ++ [Eof]).
(** ... or leaves it open. *)
Definition open_end (blen cbuf : N) (v : visit) (q : conn) : Prop :=
  exists cs, carries blen cbuf v cs /\ q = mkConn (fst v) (map Data cs).

(** What the slave does if all it can see are the commands: each answer goes to the peer that sent the command. *)
Fixpoint visits (c : cfg) (E : N -> env) (k : N) (vs : list visit) (s : st) : out (st * list (N * pkt)) :=
  match vs with
  | [] => Ok (s, [])
  | v :: t =>
      '(s1, o1) <- run c (commands E k (said v)) s ;;
      '(s2, o2) <- visits c E (k + lenN (said v)) t s1 ;;
      Ok (s2, map (pair (fst v)) o1 ++ o2)
  end.

(** Bytes that the slave sends to peer [p]. *)
Definition bytes_to (p : N) (o : list (N * pkt)) : list N :=
  concat (map (fun x => State.wire (snd x)) (filter (fun x => fst x =? p) o)).
(** The output as seen from outside: state and frames. *)
Definition seen (r : out (net * list (N * pkt))) : out (st * list (N * pkt)) :=
  '(n, o) <- r ;; Ok (t_st n, o).

(** What begins with [bs]. *)
Fixpoint starts (bs l : list N) : bool :=
  match bs, l with [], _ => true | b :: t, x :: r => (b =? x) && starts t r | _ :: _, [] => false end.
Definition answered (bs : list N) (o : list pkt) : bool := match o with p :: _ => starts bs (p_data p) | [] => false end.
(** The peer has a session: from CONNECT until DISCONNECT or a wrong key, judged by commands and answers. *)
Definition held_after (f : list N) (o : list pkt) (b : bool) : bool :=
  if starts [0xFF] f && answered [0xFF] o then true
  else if starts [0xFE] f && answered [0xFF] o || starts [0xF7] f && answered [0xFE; 0x25] o then false
  else b.
Fixpoint held (c : cfg) (E : N -> env) (k : N) (fs : list (list N)) (b : bool) (s : st) : bool :=
  match fs with
  | [] => b
  | f :: t => match step c (E k) (ORecv f) s with Ok (s1, o) => held c E (k + 1) t (held_after f o b) s1 | UB _ => b end
  end.
(** A frame without contents. *)
Definition empty (f : sframe) : Prop := f_data f = [].
