(** Properties of the command line; each theorem is followed by its assumptions. *)
From Coq Require Import NArith List Bool String.
From Verif Require Import Base Options SpecOptions ProofsOptions CasesOptions.
Import ListNotations.
Open Scope N_scope.

(** ** C114 Ethernet, POSIX: the options given are the options used *)

(** However the options are spread over the words, the slave gets what they say ... *)
Theorem C114_accepts : forall perm ps, Forall (proper perm) ps -> numeric ps -> once ps ->
  exists o, parse_eth perm (words ps) = Parsed o /\ wanted ps o.
Proof. exact accept_thm. Qed.
Print Assumptions C114_accepts.
(** ... two choices of the transport or of the IP version, even equal ones, end the program with 1, whatever follows ... *)
Theorem C114_refuses : forall perm ps t, Forall (proper perm) ps -> numeric ps -> ~ once ps -> parse_eth perm (words ps ++ t) = Exit 1.
Proof. exact refuse_thm. Qed.
Print Assumptions C114_refuses.
(** ... -h, unknown options and -p without a number end it with 0 ... *)
Theorem C114_helps : forall perm ps fs w t, Forall (proper perm) ps -> numeric ps -> once (ps ++ [Flags fs]) -> asks_help fs w t ->
  parse_eth perm (words ps ++ w :: t) = Exit 0.
Proof. exact help_thm. Qed.
Print Assumptions C114_helps.
(** ... and nothing behind "--", nor behind another word if the library does not pass over it, matters. *)
Theorem C114_dashes : forall perm ps t, Forall (proper perm) ps -> numeric ps ->
  parse_eth perm (words ps ++ [ch "-"; ch "-"] :: t) = parse_eth perm (words ps).
Proof. exact dashes_thm. Qed.
Print Assumptions C114_dashes.
Theorem C114_stops : forall ps w t, Forall (proper false) ps -> numeric ps -> not_option w ->
  parse_eth false (words ps ++ w :: t) = parse_eth false (words ps).
Proof. exact stop_thm. Qed.
Print Assumptions C114_stops.

(** Refuted for ports: the slave listens on the port given exactly if it is less than 2^16, and it announces the port it
    listens on exactly if that is 5555. *)
Theorem C114_port_refuted : forall perm ps, Forall (proper perm) ps -> numeric ps -> once ps -> ports_in ps <> [] ->
  exists o, parse_eth perm (words ps) = Parsed o /\ en_port (listens o) = value (last (ports_in ps) []) mod 2 ^ 16 /\
    (en_port (listens o) = value (last (ports_in ps) []) <-> value (last (ports_in ps) []) < 2 ^ 16) /\
    (announces o = listens o <-> value (last (ports_in ps) []) mod 2 ^ 16 = 5555).
Proof. exact port_thm. Qed.
Print Assumptions C114_port_refuted.
(** A port that is not a number is taken for 0. *)
Theorem C114_garbage_refuted : forall perm ps c w, Forall (proper perm) ps -> numeric ps -> once ps ->
  ~ blank c -> ~ 48 <= c <= 57 -> c <> ch "+" -> c <> ch "-" ->
  exists o, parse_eth perm (words ps ++ [[ch "-"; ch "p"]; c :: w]) = Parsed o /\ en_port (listens o) = 0.
Proof. exact garbage_thm. Qed.
Print Assumptions C114_garbage_refuted.

Example C114_case :
  words line1 = map chars ["-u6"; "-p"; "7777"; "log"; "-p17"]%string /\ Forall (proper true) line1 /\ numeric line1 /\ once line1 /\
  parse_eth true (words line1) = Parsed (mkEth true false 17) /\ parse_eth false (words line1) = Parsed (mkEth true false 7777) /\
  words line2 = map chars ["-t"; "-ut"]%string /\ Forall (proper false) line2 /\ numeric line2 /\ ~ once line2 /\
  asks_help [FUdp] (chars "-ux") [] /\ asks_help [] (chars "--help") [] /\
  words line3 = map chars ["-up"; "71091"]%string /\ numeric line3 /\ once line3 /\
  parse_eth true (words line3) = Parsed (mkEth false false 5555).
Proof.
  split; [reflexivity|]. split; [exact line1_proper|]. split; [exact line1_numeric|]. split; [split; discriminate|].
  split; [vm_compute; reflexivity|]. split; [vm_compute; reflexivity|].
  split; [reflexivity|]. split; [repeat constructor; discriminate|]. split; [constructor|]. split; [intros (H & _); vm_compute in H; congruence|].
  split; [left; exists (ch "x"), []; split; [reflexivity|split; [discriminate|cbn; intuition discriminate]]|].
  split; [left; exists (ch "-"), (chars "help"); split; [reflexivity|split; [discriminate|cbn; intuition discriminate]]|].
  split; [reflexivity|]. split; [exact line3_numeric|]. split; [split; discriminate|]. vm_compute. reflexivity.
Qed.

(** ** C115 SocketCAN: the interface given is the interface used *)

Theorem C115_interface : forall perm ps, Forall (cproper perm) ps -> Forall (fun n => lenN n < 64) (names_in ps) ->
  exists o, parse_can perm (cwords ps) = Parsed o /\ (co_fd o = true <-> In CFd ps) /\ co_if o = last (names_in ps) (chars "vcan0").
Proof. exact can_thm. Qed.
Print Assumptions C115_interface.
(** -h, unknown options and -i without a name end the program with 0. *)
Theorem C115_helps : forall perm ps w t, Forall (cproper perm) ps -> Forall (fun n => lenN n < 64) (names_in ps) -> casks_help w t ->
  start_can perm (cwords ps ++ w :: t) = Exit 0.
Proof. exact can_help_thm. Qed.
Print Assumptions C115_helps.
(** Refuted for long names: from 16 letters on looking up the interface is undefined, from 64 letters on the option itself. *)
Theorem C115_long_refuted : forall perm ps, Forall (cproper perm) ps -> Forall (fun n => lenN n < 64) (names_in ps) ->
  if lenN (last (names_in ps) (chars "vcan0")) <? 16
  then exists o, start_can perm (cwords ps) = Parsed o /\ (co_fd o = true <-> In CFd ps) /\ co_if o = last (names_in ps) (chars "vcan0")
  else start_can perm (cwords ps) = Undefined.
Proof. exact can_start_thm. Qed.
Print Assumptions C115_long_refuted.
Theorem C115_longer_refuted : forall perm ps t n, Forall (cproper perm) ps -> In n (names_in ps) -> 64 <= lenN n ->
  start_can perm (cwords ps ++ t) = Undefined.
Proof. exact can_long_thm. Qed.
Print Assumptions C115_longer_refuted.

Example C115_case :
  cwords cline1 = map chars ["-f"; "-i"; "can1"; "-ican2"]%string /\ Forall (cproper false) cline1 /\
  start_can false (cwords cline1) = Parsed (mkCan true (chars "can2")) /\ start_can false [] = Parsed (mkCan false (chars "vcan0")) /\
  Forall (cproper false) cline2 /\ parse_can false (cwords cline2) = Parsed (mkCan false (repeat 97 16)) /\ start_can false (cwords cline2) = Undefined /\
  Forall (cproper false) cline3 /\ parse_can false (cwords cline3) = Undefined /\
  casks_help (chars "-x") [chars "-f"] /\ casks_help (chars "-i") [] /\ start_can true (map chars ["-i"; "can1"; "-fh"]%string) = Exit 0.
Proof.
  do 9 (split; [first [vm_compute; reflexivity|repeat constructor; discriminate]|]).
  split; [left; exists (ch "x"), []; split; [reflexivity|split; [discriminate|cbn; intuition discriminate]]|]. split; [now right|]. vm_compute. reflexivity.
Qed.

(** ** C116 Ethernet, Windows: the last switch wins *)

Theorem C116_last : forall args, (en_ipv6 (parse_win args) = true <-> last_switch (ch "6") (ch "4") args) /\
  (en_tcp (parse_win args) = false <-> last_switch (ch "u") (ch "t") args).
Proof. exact win_thm. Qed.
Print Assumptions C116_last.
(** Refuted for ports, which are ignored, and for switches in one word, of which only the first counts. *)
Theorem C116_port_refuted : forall ps n, In n (ports_in ps) -> value n <> 5555 -> en_port (parse_win (words ps)) <> value n.
Proof. exact win_port_thm. Qed.
Print Assumptions C116_port_refuted.
Theorem C116_cluster_refuted : forall l r f fs, parse_win (l ++ (ch "-" :: map letter (f :: fs)) :: r) = parse_win (l ++ [ch "-"; letter f] :: r).
Proof. exact win_cluster_thm. Qed.
Print Assumptions C116_cluster_refuted.

Example C116_case :
  parse_win (map chars ["/u"; "-6"; "x"; "/t"]%string) = mkEnd true true 5555 /\
  parse_win (words line1) = mkEnd false false 5555 /\ In (chars "7777") (ports_in line1) /\ value (chars "7777") = 7777.
Proof. repeat split; try (vm_compute; reflexivity). now left. Qed.
