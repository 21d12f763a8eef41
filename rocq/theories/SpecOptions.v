(** Vocabulary for the command line (C114-C116). *)
From Coq Require Import NArith ZArith List Bool String.
From Verif Require Import Base Options.
Import ListNotations.
Open Scope N_scope.

(** ** Numbers *)

Definition is_num (w : word) : Prop := w <> [] /\ Forall (fun c => 48 <= c <= 57) w.
Definition value (w : word) : N := fold_left (fun a c => 10 * a + (c - 48)) w 0.

(** White space. *)
Definition blank (c : N) : Prop := In c [32; 9; 10; 11; 12; 13].

(** ** What the user wants, and how it may be written *)

Inductive flag := FTcp | FUdp | FIpv4 | FIpv6.
Definition letter (f : flag) : N := match f with FTcp => ch "t" | FUdp => ch "u" | FIpv4 => ch "4" | FIpv6 => ch "6" end.
(** Flags in one word; flags and a port in one word; flags and a port in two words;
    a word that is not an option. *)
Inductive part := Flags (fs : list flag) | PortIn (fs : list flag) (n : word) | PortNext (fs : list flag) (n : word) | Plain (w : word).
Definition words_of (p : part) : list word :=
  match p with
  | Flags fs => [ch "-" :: map letter fs]
  | PortIn fs n => [ch "-" :: map letter fs ++ ch "p" :: n]
  | PortNext fs n => [ch "-" :: map letter fs ++ [ch "p"]; n]
  | Plain w => [w]
  end.
Definition not_option (w : word) : Prop := w = [] \/ w = [ch "-"] \/ exists c t, w = c :: t /\ c <> ch "-".
(** Words that are not options may only be there if getopt passes over them. *)
Definition proper (permute : bool) (p : part) : Prop :=
  match p with
  | Flags fs => fs <> []
  | PortIn _ n => n <> []
  | PortNext _ _ => True
  | Plain w => permute = true /\ not_option w
  end.
Definition words (ps : list part) : list word := flat_map words_of ps.
Definition flags_in (ps : list part) : list flag :=
  flat_map (fun p => match p with Flags fs | PortIn fs _ | PortNext fs _ => fs | Plain _ => [] end) ps.
Definition ports_in (ps : list part) : list word :=
  flat_map (fun p => match p with PortIn _ n | PortNext _ n => [n] | _ => [] end) ps.
Definition numeric (ps : list part) : Prop := Forall (fun n => is_num n /\ value n < 2 ^ 31) (ports_in ps).

(** At most one of -t and -u and at most one of -4 and -6. *)
Definition is_tp (f : flag) : bool := match f with FTcp | FUdp => true | _ => false end.
Definition once (ps : list part) : Prop :=
  lenN (filter is_tp (flags_in ps)) <= 1 /\ lenN (filter (fun f => negb (is_tp f)) (flags_in ps)) <= 1.
(** The options asked for; the port is kept in 16 bits. *)
Definition wanted (ps : list part) (o : eth_opts) : Prop :=
  (eo_tcp o = false <-> In FUdp (flags_in ps)) /\ (eo_ipv6 o = true <-> In FIpv6 (flags_in ps)) /\
  eo_port o = (if lenN (ports_in ps) =? 0 then 5555 else value (last (ports_in ps) []) mod 2 ^ 16).

(** A word that shows, behind the flags [fs], -h or an unknown option, or -p with
    nothing behind it. *)
Definition asks_help (fs : list flag) (w : word) (rest : list word) : Prop :=
  (exists c t, w = ch "-" :: map letter fs ++ c :: t /\ w <> [ch "-"; ch "-"] /\
     ~ In c (map letter [FTcp; FUdp; FIpv4; FIpv6] ++ [ch "p"])) \/
  (w = ch "-" :: map letter fs ++ [ch "p"] /\ rest = []).

(** ** SocketCAN *)

Inductive cpart := CFd | CIfIn (name : word) | CIfNext (name : word) | CPlain (w : word).
Definition cwords_of (p : cpart) : list word :=
  match p with
  | CFd => [[ch "-"; ch "f"]]
  | CIfIn n => [ch "-" :: ch "i" :: n]
  | CIfNext n => [[ch "-"; ch "i"]; n]
  | CPlain w => [w]
  end.
Definition cproper (permute : bool) (p : cpart) : Prop :=
  match p with CIfIn n => n <> [] | CPlain w => permute = true /\ not_option w | _ => True end.
Definition cwords (ps : list cpart) : list word := flat_map cwords_of ps.
Definition names_in (ps : list cpart) : list word := flat_map (fun p => match p with CIfIn n | CIfNext n => [n] | _ => [] end) ps.

(** A word that shows -h or an unknown option, or -i with nothing behind it. *)
Definition casks_help (w : word) (rest : list word) : Prop :=
  (exists c t, w = ch "-" :: c :: t /\ w <> [ch "-"; ch "-"] /\ ~ In c [ch "f"; ch "i"]) \/ (w = [ch "-"; ch "i"] /\ rest = []).

(** ** Windows *)

(** A switch with the letter [c]. *)
Definition switch (c : N) (w : word) : Prop := exists d t, w = d :: c :: t /\ (d = ch "/" \/ d = ch "-").
(** [a] is the last switch among [a] and [b]. *)
Definition last_switch (a b : N) (args : list word) : Prop :=
  exists l w r, args = l ++ w :: r /\ switch a w /\ (forall x, In x r -> ~ switch a x /\ ~ switch b x).
