(** The C preprocessor, as far as the headers of the slave need it (ISO/IEC 9899:2011,
    6.10), and what these headers tell it to do. *)
From Coq Require Import ZArith NArith List Bool.
Import ListNotations.
Open Scope Z_scope.

(** The files: those of inc/, the configuration, and the two transports of the
    repository that choose themselves. *)
Inductive file :=
| Macros | Types | Util | Xcp | Hw | Tui | Timeout | Eth | Terminal | Threads | Ow
| Config | Sxi | ArduinoCan | UtilC.

(** The macros the modelled directives look at.  [Seen f] is the one a header defines to
    be read once.  [Prints] stands for DBG_PRINT1..6 and DBG_TRACE1..6 (1: they print, 0:
    they are empty), [Static] for XCP_STATIC (1: static, 0: empty). *)
Inductive name :=
| Seen (f : file)
| On | Off | Guards
| Build | DebugBuild | ReleaseBuild | Prints | Static
| Layer | OnCan | OnCanFd | OnFlexray | OnUsb | OnEthernet | OnSxi | OnBth
| TpCan | TpBluetooth | TpEther | TpSxi
| Cplusplus.

Definition file_no (f : file) : N :=
  match f with
  | Macros => 0 | Types => 1 | Util => 2 | Xcp => 3 | Hw => 4 | Tui => 5 | Timeout => 6 | Eth => 7
  | Terminal => 8 | Threads => 9 | Ow => 10 | Config => 11 | Sxi => 12 | ArduinoCan => 13 | UtilC => 14
  end%N.
Definition name_no (n : name) : N :=
  match n with
  | Seen f => 100 + file_no f
  | On => 0 | Off => 1 | Guards => 2
  | Build => 3 | DebugBuild => 4 | ReleaseBuild => 5 | Prints => 6 | Static => 7
  | Layer => 8 | OnCan => 9 | OnCanFd => 10 | OnFlexray => 11 | OnUsb => 12 | OnEthernet => 13 | OnSxi => 14 | OnBth => 15
  | TpCan => 16 | TpBluetooth => 17 | TpEther => 18 | TpSxi => 19
  | Cplusplus => 20
  end%N.
Definition name_eqb (m n : name) : bool := N.eqb (name_no m) (name_no n).

(** Replacement of a macro: a number or another macro, parentheses left out. *)
Inductive body := Num (z : Z) | Ref (n : name).
Definition body_eqb (a b : body) : bool :=
  match a, b with Num x, Num y => x =? y | Ref m, Ref n => name_eqb m n | _, _ => false end.

Definition env := name -> option body.
Definition upd (e : env) (n : name) (b : body) : env := fun m => if name_eqb m n then Some b else e m.

(** 6.10.1 4: the number a name stands for in a condition; a name that is no macro is 0.
    Simplification: replaced at most four times; the definitions modelled here need two,
    and one that leads back to itself ends as a name that is no macro. *)
Fixpoint value_at (k : nat) (e : env) (n : name) : Z :=
  match e n with
  | None => 0
  | Some (Num z) => z
  | Some (Ref m) => match k with O => 0 | S k' => value_at k' e m end
  end.
Definition value (e : env) (n : name) : Z := value_at 4 e n.

(** Conditions of #if. *)
Inductive cond := Defined (n : name) | Equal (m n : name) | Not (c : cond) | Or (c d : cond).
Fixpoint holds (e : env) (c : cond) : bool :=
  match c with
  | Defined n => match e n with Some _ => true | None => false end
  | Equal m n => value e m =? value e n
  | Not d => negb (holds e d)
  | Or d d' => holds e d || holds e d'
  end.

(** Directives, and the text between them: the opening and closing of a block extern C,
    and the declarations or definitions of a file.  #elif is an [If] in the last argument. *)
Inductive dir :=
| Define (n : name) (b : body)
| Include (f : file)
| If (c : cond) (yes no : list dir)
| Error
| Open
| Close
| Text (f : file).

(** What the preprocessor passes on. *)
Inductive piece := POpen | PClose | PText (f : file).

(** Why a file is rejected: #error, or another definition of a defined macro (6.10.3 2). *)
Inductive why := ErrorLine | Redefined | TooLong.
Inductive result := Done (e : env) (out : list piece) | Reject (w : why).

Definition put (p : piece) (r : result) : result :=
  match r with Done e o => Done e (p :: o) | x => x end.

(** [k]: number of directives at most processed. *)
Fixpoint run (k : nat) (text : file -> list dir) (ds : list dir) (e : env) : result :=
  match ds with
  | [] => Done e []
  | d :: r =>
      match k with
      | O => Reject TooLong
      | S k' =>
          match d with
          | Define n b =>
              match e n with
              | Some b' => if body_eqb b' b then run k' text r e else Reject Redefined
              | None => run k' text r (upd e n b)
              end
          | Include f => run k' text (text f ++ r) e
          | If c yes no => run k' text ((if holds e c then yes else no) ++ r) e
          | Error => Reject ErrorLine
          | Open => put POpen (run k' text r e)
          | Close => put PClose (run k' text r e)
          | Text f => put (PText f) (run k' text r e)
          end
      end
  end.

(** A translation unit that includes these files, one after the other. *)
Definition one (text : file -> list dir) (f : file) (e : env) : result := run 100 text [Include f] e.
Fixpoint unit (text : file -> list dir) (fs : list file) (e : env) : result :=
  match fs with
  | [] => Done e []
  | f :: r =>
      match one text f e with
      | Done e' o => match unit text r e' with Done e'' o' => Done e'' (o ++ o') | x => x end
      | x => x
      end
  end.

(** ** The headers *)

(** #if XCP_ENABLE_EXTERN_C_GUARDS == XCP_ON / #if defined(__cplusplus): inc/xcp_macros.h
    38-42 and 172-176, and the same lines in the other headers. *)
Definition guard (d : dir) : dir := If (Equal Guards On) [If (Defined Cplusplus) [d] []] [].
(** #if !defined(...) / #define ...: inc/xcp_macros.h 35-36, and so on. *)
Definition once (f : file) (ds : list dir) : list dir := [If (Not (Defined (Seen f))) (Define (Seen f) (Num 1) :: ds) []].

(** inc/xcp_macros.h 35-180.  Simplifications: other macros it defines are not modelled;
    the target is Windows or Unix (line 123). *)
Definition macros_h : list dir := once Macros
  [guard Open;
   Define DebugBuild (Num 1); Define ReleaseBuild (Num 2);
   If (Equal Build DebugBuild) [Define Static (Num 0)] [Define Static (Num 1)];
   If (Equal Build DebugBuild) [Define Prints (Num 1)] [Define Prints (Num 0)];
   guard Close].

(** inc/xcp_types.h 26-106. *)
Definition types_h : list dir := once Types [guard Open; Text Types; guard Close].

(** inc/xcp_util.h 26-53. *)
Definition util_h : list dir := once Util [guard Open; Include Types; Text Util; guard Close].

(** inc/xcp.h 26-1260.  Simplification: the checks of 66-251 are taken as passed (see
    Checks.v). *)
Definition xcp_h : list dir := once Xcp
  [Include Macros; Include Types; Include Util;
   Define On (Num 1); Define Off (Num 0);
   Define OnCan (Num 1); Define OnCanFd (Num 2); Define OnFlexray (Num 3); Define OnUsb (Num 4);
   Define OnEthernet (Num 5); Define OnSxi (Num 6); Define OnBth (Num 128);
   guard Open;
   Include Config;
   Text Xcp;
   guard Close].

(** inc/xcp_hw.h 26-52. *)
Definition hw_h : list dir := once Hw [guard Open; Include Xcp; Text Hw; guard Close].

(** inc/xcp_tui.h 26-45. *)
Definition tui_h : list dir := once Tui [guard Open; Text Tui; guard Close].

(** inc/xcp_tl_timeout.h 34-64. *)
Definition timeout_h : list dir := once Timeout [guard Open; Include Types; Text Timeout; guard Close].

(** inc/xcp_eth.h 26-75, inc/xcp_threads.h 26-40, inc/xcp_terminal.h 26-34, inc/xcp_ow.h
    26-57: no blocks extern C. *)
Definition eth_h : list dir := once Eth [Text Eth].
Definition threads_h : list dir := once Threads [Text Threads].
Definition terminal_h : list dir := once Terminal [Include Xcp; Include Threads].
Definition ow_h : list dir := once Ow [Include Xcp; Text Ow].

(** ** Configurations *)

(** What a configuration says: XCP_ENABLE_EXTERN_C_GUARDS is on, XCP_BUILD_TYPE is
    XCP_DEBUG_BUILD, and which of the two files of the repository selects the transport. *)
Inductive template := Tools | Sim.
Record settings := mkSettings { g_guards : bool; g_debug : bool; g_template : template }.

(** tools/xcp_config.h 169-220. *)
Definition tools_layer : list dir :=
  [If (Defined TpCan) [Define Layer (Ref OnCan)]
   [If (Defined TpBluetooth) [Define Layer (Ref OnBth)]
    [If (Defined TpEther) [Define Layer (Ref OnEthernet)]
     [If (Or (Defined TpSxi) (Equal Layer OnSxi)) [Define Layer (Ref OnSxi)] [Error]]]]].

(** examples/xcpsim/xcp_config.h 164-204. *)
Definition sim_layer : list dir :=
  [If (Or (Defined TpCan) (Equal Layer OnCan)) [Define Layer (Ref OnCan)]
   [If (Or (Defined TpBluetooth) (Equal Layer OnBth)) [Define Layer (Ref OnBth)]
    [If (Or (Defined TpEther) (Equal Layer OnEthernet)) [Define Layer (Ref OnEthernet)]
     [If (Or (Defined TpSxi) (Equal Layer OnSxi)) [] [Error]]]]].

(** tools/xcp_config.h 31-264, examples/xcpsim/xcp_config.h 31-248.  [layer]: the part
    that selects the transport. *)
Definition config_h (g : settings) (layer : list dir) : list dir := once Config
  ([Define Build (Ref (if g_debug g then DebugBuild else ReleaseBuild));
    Define Guards (Ref (if g_guards g then On else Off))] ++ layer).
Definition layer_of (t : template) : list dir := match t with Tools => tools_layer | Sim => sim_layer end.

(** ** Sources that include them *)

(** src/tl/sxi/xcp_tl.c 26-186. *)
Definition sxi_c : list dir :=
  [Include Config; If (Equal Layer OnSxi) [Include Xcp; Include Timeout; Include Util; Text Sxi] []].
(** src/tl/can/arduino_can.cpp 26-299. *)
Definition arduino_can : list dir := [Include Config; If (Equal Layer OnCan) [Text ArduinoCan] []].
(** src/xcp_util.c 27-29 and 72-117: [Text UtilC] is XcpUtl_Hexdump and XcpUtl_Itoa. *)
Definition util_c : list dir := [Include Util; Include Macros; If (Equal Build DebugBuild) [Text UtilC] []].

Definition text_of (g : settings) (layer : list dir) (f : file) : list dir :=
  match f with
  | Macros => macros_h | Types => types_h | Util => util_h | Xcp => xcp_h | Hw => hw_h | Tui => tui_h
  | Timeout => timeout_h | Eth => eth_h | Terminal => terminal_h | Threads => threads_h | Ow => ow_h
  | Config => config_h g layer | Sxi => sxi_c | ArduinoCan => arduino_can | UtilC => util_c
  end.

(** The command line of the compiler: -DTP_CAN and so on, -DXCP_TRANSPORT_LAYER=... *)
Record options := mkOptions { o_can : bool; o_bth : bool; o_eth : bool; o_sxi : bool; o_layer : option name }.
Definition start (cpp : bool) (o : options) : env := fun n =>
  match n with
  | Cplusplus => if cpp then Some (Num 1) else None
  | TpCan => if o_can o then Some (Num 1) else None
  | TpBluetooth => if o_bth o then Some (Num 1) else None
  | TpEther => if o_eth o then Some (Num 1) else None
  | TpSxi => if o_sxi o then Some (Num 1) else None
  | Layer => option_map Ref (o_layer o)
  | _ => None
  end.
Definition plain : options := mkOptions false false false false None.
