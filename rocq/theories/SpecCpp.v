(** Vocabulary for the claims about headers and configuration (C154-C157). *)
From Coq Require Import ZArith List Bool.
From Verif Require Import Cpp.
Import ListNotations.
Open Scope Z_scope.

(** Number of open blocks extern C after [o], when [d] are open before it; none if a
    brace closes nothing. *)
Fixpoint walk (d : Z) (o : list piece) : option Z :=
  match o with
  | [] => Some d
  | POpen :: r => walk (d + 1) r
  | PClose :: r => if d <=? 0 then None else walk (d - 1) r
  | PText _ :: r => walk d r
  end.
(** The braces match: otherwise the compiler rejects the text. *)
Definition balanced (o : list piece) : Prop := walk 0 o = Some 0.

(** How many blocks extern C are open where the declarations of [f] stand ([d] before
    the text): with none the functions have C++ linkage, otherwise C linkage. *)
Fixpoint depths (d : Z) (f : file) (o : list piece) : list Z :=
  match o with
  | [] => []
  | POpen :: r => depths (d + 1) f r
  | PClose :: r => depths (d - 1) f r
  | PText h :: r => (if N.eqb (file_no h) (file_no f) then [d] else []) ++ depths d f r
  end.

(** The headers of inc/ and the configuration. *)
Definition header (f : file) : Prop := match f with Sxi | ArduinoCan | UtilC => False | _ => True end.
(** Those that read inc/xcp.h. *)
Definition reads_xcp (f : file) : bool := match f with Xcp | Hw | Terminal | Ow => true | _ => false end.
Definition is_config (f : file) : bool := match f with Config => true | _ => false end.
(** Those that read inc/xcp_macros.h. *)
Definition reads_macros (f : file) : bool := match f with Macros => true | f => reads_xcp f end.
(** Those that declare functions or types inside blocks extern C. *)
Definition guarded (f : file) : Prop := match f with Types | Util | Xcp | Hw | Tui | Timeout => True | _ => False end.

(** The command lines of the build: one transport (examples/xcpsim/CMakeLists.txt 109-126). *)
Inductive transport := Can | Bth | Ether | Serial.
Definition built_for (t : transport) : options :=
  match t with
  | Can => mkOptions true false false false None
  | Bth => mkOptions false true false false None
  | Ether => mkOptions false false true false None
  | Serial => mkOptions false false false true None
  end.
Definition layer_name (t : transport) : name :=
  match t with Can => OnCan | Bth => OnBth | Ether => OnEthernet | Serial => OnSxi end.

(** Preprocessing of a file that includes [fs]. *)
Definition preprocess (g : settings) (cpp : bool) (o : options) (fs : list file) : result :=
  unit (text_of g (layer_of (g_template g))) fs (start cpp o).

Definition first (p : file -> bool) (fs : list file) : option file := find p fs.

(** The definition or declarations of [f] are part of what is compiled. *)
Definition compiled (f : file) (o : list piece) : Prop := In (PText f) o.
(** Transport a unit is configured for. *)
Definition selects (e : env) (t : transport) : Prop := e Layer = Some (Ref (layer_name t)).

(** For the examples: what is passed on, and the value of a macro at the end. *)
Definition passed (r : result) : option (list piece) := match r with Done _ o => Some o | Reject _ => None end.
Definition macro (r : result) (n : name) : option Z := match r with Done e _ => Some (value e n) | Reject _ => None end.
