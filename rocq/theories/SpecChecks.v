(** Vocabulary for the checks on configurations. *)
From Coq Require Import ZArith NArith List Bool.
From Verif Require Import Base Config State Checks.
Import ListNotations.
Open Scope Z_scope.

(** The values of a configuration as written by the user. *)
Definition value_of (e : macro -> option Z) (m : macro) : Z := match e m with Some z => z | None => 0 end.
(** Classic CAN: 1 is XCP_ON_CAN. *)
Definition classic_can (e : macro -> option Z) : Prop := value_of e Layer = 1 /\ value_of e CanFd = 0.

(** What a configuration has to meet. *)
Record acceptable (e : macro -> option Z) : Prop := {
  a_unsupported : forall m, In m [Stim; Alternating; Prioritization; BitOffset; AddrExt; MultipleLists] -> value_of e m <> 1;
  a_block : value_of e MasterBlock = 1 -> value_of e DownloadNext <> 0;
  a_cto : value_of e MaxCto <= 255;
  a_fd : value_of e Layer = 1 -> value_of e CanFd <> 0 -> 8 <= value_of e MaxCto <= 64 /\ 8 <= value_of e MaxDto <= 64;
  a_seed : value_of e GetSeed = 1 -> value_of e Unlock <> 0;
  a_unlock : value_of e Unlock = 1 -> value_of e GetSeed <> 0;
  a_lists : value_of e DaqCommands = 1 -> value_of e ConfigType = 3 -> value_of e Predefined <> 0;
  a_events : value_of e DaqCommands = 1 -> 1 <= value_of e Events;
  a_multiple : value_of e WriteMultiple = 1 -> ~ classic_can e /\ 10 <= value_of e MaxCto;
  a_dlc : value_of e MaxDlc = 1 -> value_of e Layer = 1;
  a_sizes : value_of e Layer <> 1 -> 0 <= value_of e LengthSize <= 2 /\ 0 <= value_of e CounterSize <= 2
}.

(** Switches are XCP_ON, XCP_OFF or not defined. *)
Definition switches (e : macro -> option Z) : Prop :=
  forall m, In m [MasterBlock; DownloadNext; GetSeed; Unlock; DaqCommands; WriteMultiple; MaxDlc] -> value_of e m = 0 \/ value_of e m = 1.

(** The slave [c] is compiled from the macros [e] the checks leave behind. *)
Record describes (e : macro -> option Z) (c : cfg) : Prop := {
  d_cto : value_of e MaxCto = Z.of_N (c_max_cto c);
  d_dto : value_of e MaxDto = Z.of_N (c_max_dto c);
  d_len : value_of e LengthSize = Z.of_N (c_len_size c);
  d_ctr : value_of e CounterSize = Z.of_N (c_ctr_size c);
  d_events : value_of e Events = Z.of_N (lenN (c_events c));
  d_dlc : value_of e MaxDlc = 1 <-> c_max_dlc c = true;
  d_seed : value_of e GetSeed = 1 <-> c_opt c 0xF8 = true;
  d_unlock : value_of e Unlock = 1 <-> c_opt c 0xF7 = true;
  d_multiple : value_of e WriteMultiple = 1 <-> c_opt c 0xC7 = true;
  d_block : value_of e MasterBlock = 1 <-> c_mbm c = true;
  d_next : value_of e DownloadNext = 1 <-> c_opt c 0xEF = true;
  d_daq : value_of e DaqCommands = 1 <-> c_daq c = true
}.

(** The value a macro has after the checks. *)
Definition redefined (e : macro -> option Z) (m : macro) : Z :=
  let v := value_of e in
  let is m z := v m =? z in
  let can := is Layer 1 in
  let dynamic := if is ConfigType 1 then 1 else if is ConfigType 3 || is ConfigType 0 then 0 else v DynamicLists in
  match m with
  | MaxCto | MaxDto => if can && is CanFd 0 then 8 else v m
  | LengthSize | CounterSize | ChecksumSize => if can then 0 else v m
  | TransportCmd => if can && (is SlaveId 1 || is GetDaqId 1 || is SetDaqId 1) then 1 else v m
  | Protection => if is GetSeed 1 && is Unlock 1 then 1 else if is GetSeed 0 && is Unlock 0 then 0 else v m
  | DynamicLists => dynamic
  | FreeDaq | AllocDaq | AllocOdt | AllocOdtEntry => if is DaqCommands 1 && (dynamic =? 0) && is m 1 then 0 else v m
  | EntityBits => if v Entities <? 256 then 8 else if v Entities <? 65536 then 16 else 32
  | _ => v m
  end.

(** The buffers have the sizes compiled in. *)
Definition sized (c : cfg) (s : st) : Prop := lenN (s_in s) = c_ctobuf c /\ lenN (s_out s) = c_max_cto c.
