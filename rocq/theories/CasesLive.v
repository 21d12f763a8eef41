(** Connections for the examples of C122 and C123. *)
From Coq Require Import NArith List Bool.
From Verif Require Import Base Config State Core Demo Eth SpecSxi Net Tcp SpecTcp CasesTcp Live.
Import ListNotations.
Open Scope N_scope.

(** Peer 1 is reset; peer 3 disappears inside of a header, peer 4 inside of the contents of a frame; peer 2 follows. *)
Definition reset1 : conn := mkConn 1 (map Data one_cs ++ [Failed; Eof]).
Definition three : visit := (3, [mkFrame 0 0 [0xFF; 0]]).
Definition three_cs : list (list N) := [[2; 0; 0; 0; 0xFF]; [0; 7]; [0; 3]].
Definition four : visit := (4, [mkFrame 0 0 [0xFF; 0]; mkFrame 1 0 [0xFE]]).
Definition half : sframe := mkFrame 5 0 [0xF4; 1; 2; 3; 4; 5; 6; 7].
Definition four_cs : list (list N) := [[2; 0; 0; 0; 0xFF; 0; 1; 0; 1; 0]; [0xFE; 8; 0; 5; 0; 0xF4]; [1; 2]].
Definition conn3 : conn := mkConn 3 (map Data three_cs ++ [Eof]).
Definition conn4 : conn := mkConn 4 (map Data four_cs ++ [Eof; Eof]).
(** Peer 1 is being served. *)
Definition net1 : net := mkNet (demo_st cfg_eth env_yes []) false (Some 1) 1 0.
Definition live1 (win : bool) (rs : list shipped) := live_handler cfg_eth win 68 always 0 1 (map Data one_cs ++ [Eof]) rs net1.
Definition why_of {A} (r : out A) : option why := match r with Ok _ => None | UB w => Some w end.
Definition ended_ok {A B C D} (r : out (A * B * C * D)) : option C := match r with Ok (_, _, e, _) => Some e | UB _ => None end.
