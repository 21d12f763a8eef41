(** Vocabulary of the information, programming and seed properties. *)
From Coq Require Import NArith List Bool.
From Verif Require Import Base Config Cfgs State Core Spec DemoDaq.
Import ListNotations.
Open Scope N_scope.

(** Address and length of the identification of a type: types 0 and 1 are
    configured, the others are the user's. *)
Definition identification (c : cfg) (e : env) (t : N) : option (N * N) :=
  if t =? 0 then Some (c_id0 c) else if t =? 1 then Some (c_id1 c) else if c_idhook c then e_getid e t else None.

(** Resources (XCP part 2, table 8) that the build has. *)
Definition has_resource (c : cfg) (r : N) : Prop :=
  (r = 1 /\ c_cal c = true) \/ (r = 4 /\ c_daq c = true) \/ (r = 16 /\ c_pgm c = true).

(** The commands that are allowed in programming mode only: PROGRAM_CLEAR,
    PROGRAM, PROGRAM_RESET, PROGRAM_PREPARE, PROGRAM_FORMAT, PROGRAM_NEXT,
    PROGRAM_MAX, PROGRAM_VERIFY. *)
Definition program_codes : list N := [0xD1; 0xD0; 0xCF; 0xCC; 0xCB; 0xCA; 0xC9; 0xC8].
(** Compiled in; the first three are not optional. *)
Definition program_code (c : cfg) (k : N) : Prop := In k program_codes /\ c_pgm c = true /\ (k < 0xCF -> c_opt c k = true).

(** An environment with a seed of ten bytes, and a build for 8-byte frames. *)
Definition env_long : env := {|
  e_access := e_access env_yes; e_map := e_map env_yes; e_getid := e_getid env_yes;
  e_seed := fun r => [u8 r; 0xA1; 0xA2; 0xA3; 0xA4; 0xA5; 0xA6; 0xA7; 0xA8; 0xA9];
  e_unlock := e_unlock env_yes; e_timer := e_timer env_yes |}.
Definition cfg_small : cfg := w_opt (optset all_optional) (w_max_cto 8 cfg_eth).
(** A build with 2-byte time stamps. *)
Definition cfg_ts2 : cfg := w_ts_size 2 cfg_daq.
(** A build whose DTOs are longer than 256 bytes. *)
Definition cfg_wide : cfg := w_max_dto 258 cfg_daq.
(** A Motorola build on CAN. *)
Definition cfg_be : cfg := w_opt (optset (0xF2 :: 0xEF :: all_optional)) (w_motorola true cfg_can).

(** One entry of the announced maximum length in the first ODT, event 0 assigned
    with time stamps, measurement started. *)
Definition ex_max_entry : list op := [ORecv [0xFF; 0]; ORecv [0xD6]; ORecv [0xD5; 0; 1; 0]; ORecv [0xD4; 0; 0; 0; 1]; ORecv [0xD3; 0; 0; 0; 0; 1];
  ORecv [0xE2; 0; 0; 0; 0; 0]; ORecv [0xE1; 0xFF; 63; 0; 0; 0x10; 0; 0]; ORecv [0xE0; 0x10; 0; 0; 0; 0; 1; 0]; ORecv [0xDE; 2; 0; 0]; ORecv [0xDD; 1]].
