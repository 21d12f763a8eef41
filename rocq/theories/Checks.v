(** The checks inc/xcp.h makes on a configuration, lines 66-251: macros as values, #error
    as [None].  Simplification: macros that are only defined there and not compared are
    left out (XCP_DAQ_ENABLE_QUEUING, XCP_MIN_DAQ, buffer sizes, defaults of 237-243). *)
From Coq Require Import ZArith List Bool.
Import ListNotations.
Open Scope Z_scope.

(** The macros of a configuration that are compared: XCP_ENABLE_STIM, XCP_DAQ_ENABLE_..., and
    so on; [TransportCmd], [Protection], [DynamicLists], [EntityBits] are defined by the
    checks (the width of XCP_DAQ_ENTITY_TYPE for the last). *)
Inductive macro :=
| Stim | Alternating | Prioritization | BitOffset | AddrExt | MultipleLists
| MasterBlock | DownloadNext | MaxCto | MaxDto | Layer | CanFd | SlaveId | GetDaqId | SetDaqId
| LengthSize | CounterSize | ChecksumSize | GetSeed | Unlock | DaqCommands | ConfigType | Predefined
| Events | FreeDaq | AllocDaq | AllocOdt | AllocOdtEntry | WriteMultiple | MaxDlc | Entities
| TransportCmd | Protection | DynamicLists | EntityBits.
Scheme Equality for macro.

(** Undefined macros count as 0 (ISO C 6.10.1 4). *)
Definition menv := macro -> option Z.
Definition val (e : menv) (m : macro) : Z := match e m with Some z => z | None => 0 end.
Definition def (m : macro) (z : Z) (e : menv) : menv := fun n => if macro_beq m n then Some z else e n.
Definition on (e : menv) (m : macro) : bool := val e m =? 1.
Definition off (e : menv) (m : macro) : bool := val e m =? 0.
Definition error_if (b : bool) (e : menv) : option menv := if b then None else Some e.
Definition bind (r : option menv) (f : menv -> option menv) : option menv :=
  match r with Some e => f e | None => None end.

(** inc/xcp.h 70-93 *)
Definition ck_unsupported (e : menv) : option menv :=
  error_if (existsb (on e) [Stim; Alternating; Prioritization; BitOffset; AddrExt; MultipleLists]) e.
(** inc/xcp.h 95-103 *)
Definition ck_block (e : menv) : option menv :=
  bind (error_if (on e MasterBlock && off e DownloadNext) e)
    (fun e => error_if (0xff <? val e MaxCto) e).
(** inc/xcp.h 107-148 *)
Definition ck_can (e : menv) : option menv :=
  if val e Layer =? 1 then
    let e1 := if on e SlaveId || on e GetDaqId || on e SetDaqId then def TransportCmd 1 e else e in
    bind
      (if match e1 CanFd with None => true | Some _ => off e1 CanFd end
       then Some (def MaxDto 8 (def MaxCto 8 e1))
       else bind (error_if ((val e1 MaxCto <? 8) || (64 <? val e1 MaxCto)) e1)
              (fun e => error_if ((val e MaxDto <? 8) || (64 <? val e MaxDto)) e))
      (fun e => Some (def ChecksumSize 0 (def CounterSize 0 (def LengthSize 0 e))))
  else Some e.
(** inc/xcp.h 150-158 *)
Definition ck_seed (e : menv) : option menv :=
  if on e GetSeed && on e Unlock then Some (def Protection 1 e)
  else if off e GetSeed && off e Unlock then Some (def Protection 0 e)
  else if on e GetSeed && off e Unlock then None
  else if off e GetSeed && on e Unlock then None
  else Some e.
(** inc/xcp.h 160-184; STD_OFF is defined nowhere. *)
Definition ck_lists (e : menv) : option menv :=
  let e1 := if val e ConfigType =? 3 then def DynamicLists 0 e
            else if val e ConfigType =? 1 then def DynamicLists 1 e
            else if val e ConfigType =? 0 then def DynamicLists 0 e else e in
  bind (error_if (on e1 DaqCommands && (val e1 ConfigType =? 3) && off e1 Predefined) e1)
    (fun e => error_if (on e DaqCommands && (val e Events <? 1)) e).
(** inc/xcp.h 186-206 *)
Definition ck_alloc (e : menv) : option menv :=
  if on e DaqCommands && off e DynamicLists
  then Some (fold_left (fun e m => if on e m then def m 0 e else e) [FreeDaq; AllocDaq; AllocOdt; AllocOdtEntry] e)
  else Some e.
(** inc/xcp.h 208-231 *)
Definition ck_sizes (e : menv) : option menv :=
  bind (error_if (on e WriteMultiple && (val e MaxCto <? 10)) e) (fun e =>
  bind (error_if (negb (val e Layer =? 1) && on e MaxDlc) e) (fun e =>
  bind (error_if (negb (val e CounterSize =? 0) && negb (val e CounterSize =? 1) && negb (val e CounterSize =? 2)) e) (fun e =>
  error_if (negb (val e LengthSize =? 0) && negb (val e LengthSize =? 1) && negb (val e LengthSize =? 2)) e))).
(** inc/xcp.h 245-251 *)
Definition ck_entities (e : menv) : option menv :=
  Some (def EntityBits (if val e Entities <? 256 then 8 else if val e Entities <? 65536 then 16 else 32) e).

(** inc/xcp.h 66-251 *)
Definition checks (e : menv) : option menv :=
  bind (ck_unsupported e) (fun e => bind (ck_block e) (fun e => bind (ck_can e) (fun e => bind (ck_seed e) (fun e =>
  bind (ck_lists e) (fun e => bind (ck_alloc e) (fun e => bind (ck_sizes e) ck_entities)))))).
