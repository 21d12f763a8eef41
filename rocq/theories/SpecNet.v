(** Vocabulary for peers (C74, C77). *)
From Coq Require Import NArith List Bool.
From Verif Require Import Base Config State Core Spec Net.
Import ListNotations.
Open Scope N_scope.

(** States reached by the slave and its transport layer. *)
Definition net_reachable (c : cfg) (udp : bool) (m : mem) (l : list nevent) (n : net) : Prop :=
  exists n0 o, net_boot c m = Ok n0 /\ net_run c udp l n0 = Ok (n, o).

(** Events other than CONNECT frames, and than the initialisation of the slave. *)
Definition no_connect (ev : nevent) : Prop :=
  match ev with EFrame _ _ f => hd_error f <> Some 0xFF | EOp _ (ORecv f) => hd_error f <> Some 0xFF | EOp _ OInit => False | _ => True end.

(** Events that cannot end a session: no end of the stream, no DISCONNECT or UNLOCK command, no disconnection or
    initialisation by the program.  Further peers may try to connect. *)
Definition no_end (ev : nevent) : Prop :=
  match ev with
  | EFrame _ _ f => exists k, hd_error f = Some k /\ k <> 0xFE /\ k <> 0xF7
  | EAccept _ => True
  | EEof => False
  | EOp _ o => o <> ODisconnect /\ o <> OInit
  end.
