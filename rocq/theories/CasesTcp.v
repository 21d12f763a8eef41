(** Connections for the examples of C110 and C111. *)
From Coq Require Import NArith List Bool.
From Verif Require Import Base Config State Core Demo Eth SpecSxi Net Tcp SpecTcp.
Import ListNotations.
Open Scope N_scope.

(** Peer 1 connects and unlocks DAQ; peer 2 reads the status. *)
Definition one : visit := (1, [mkFrame 0 0 [0xFF; 0]; mkFrame 1 0 [0xF8; 0; 4]; mkFrame 2 0 [0xF7; 1; 0x42]]).
Definition two : visit := (2, [mkFrame 0 0 [0xFD]]).
Definition one_cs : list (list N) := [[2; 0; 0; 0; 0xFF]; [0; 3; 0; 1; 0]; [0xF8; 0; 4; 3; 0; 2; 0; 0xF7; 1]; [0x42]].
Definition two_cs : list (list N) := [[1; 0; 0; 0; 0xFD]].
Definition conn1 : conn := mkConn 1 (map Data one_cs ++ [Eof]).
Definition conn2 : conn := mkConn 2 (map Data two_cs ++ [Eof]).
Definition net0 : net := mkNet (demo_st cfg_eth env_yes []) false None 0 0.
Definition always : N -> env := fun _ => env_yes.

(** Destinations and contents. *)
Definition letters (r : out (net * list (N * pkt))) : option (list (N * list N)) :=
  match r with Ok (_, o) => Some (map (fun x => (fst x, p_data (snd x))) o) | UB _ => None end.

(** An empty frame. *)
Definition nil_frame : sframe := mkFrame 9 0 [].
(** CONNECT after it; DISCONNECT before it. *)
Definition late : list sframe := [mkFrame 0 0 [0xFF; 0]].
Definition done : list sframe := [mkFrame 0 0 [0xFF; 0]; mkFrame 1 0 [0xFE]].
