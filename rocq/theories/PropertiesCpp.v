(** C154-C157: what the headers and the configuration tell the preprocessor. *)
From Coq Require Import ZArith List Bool.
From Verif Require Import Cpp SpecCpp ProofsCpp2.
Import ListNotations.
Open Scope Z_scope.

(** C154: a C++ file that includes headers of the slave, in whatever order, has matching
    braces if and only if: with XCP_ENABLE_EXTERN_C_GUARDS on, xcp_config.h is included
    before all that read xcp.h; with the switch off, the first header that reads xcp.h is
    not xcp_hw.h. *)
Theorem C154_order : forall g t fs, Forall header fs -> exists e o,
  preprocess g true (built_for t) fs = Done e o /\
  (balanced o <-> if g_guards g then first (fun f => is_config f || reads_xcp f) fs = None \/ first (fun f => is_config f || reads_xcp f) fs = Some Config
                  else first reads_xcp fs <> Some Hw).
Proof. exact order_thm. Qed.
Print Assumptions C154_order.
Example C154_order_case :
  passed (preprocess (mkSettings true false Tools) true (built_for Ether) [Config; Xcp; Hw]) =
  Some [POpen; PClose; POpen; PText Types; PClose; POpen; PText Util; PClose; POpen; PText Xcp; PClose; POpen; PText Hw; PClose].
Proof. vm_compute. reflexivity. Qed.

(** With the switch on, every C++ file that starts with xcp.h is rejected by the compiler:
    a brace closes nothing. *)
Theorem C154_xcp_first_refuted : forall g t fs, Forall header fs -> g_guards g = true -> exists e o,
  preprocess g true (built_for t) (Xcp :: fs) = Done e o /\ ~ balanced o.
Proof. exact xcp_first. Qed.
Print Assumptions C154_xcp_first_refuted.
Example C154_xcp_first_case :
  passed (preprocess (mkSettings true false Tools) true (built_for Ether) [Xcp]) =
  Some [POpen; PClose; POpen; PText Types; PClose; POpen; PText Util; PClose; PText Xcp; PClose].
Proof. vm_compute. reflexivity. Qed.

(** Every C++ file that starts with xcp_hw.h is rejected, whatever the switch says. *)
Theorem C154_hw_first_refuted : forall g t fs, Forall header fs -> exists e o,
  preprocess g true (built_for t) (Hw :: fs) = Done e o /\ ~ balanced o.
Proof. exact hw_first. Qed.
Print Assumptions C154_hw_first_refuted.
Example C154_hw_first_case :
  passed (preprocess (mkSettings false false Sim) true (built_for Can) [Hw]) =
  Some [POpen; POpen; PClose; POpen; PText Types; PClose; POpen; PText Util; PClose; PText Xcp; PText Hw].
Proof. vm_compute. reflexivity. Qed.

(** C files are not affected: no braces at all. *)
Theorem C154_c : forall g t fs, Forall header fs -> exists e o,
  preprocess g false (built_for t) fs = Done e o /\ (forall p, In p o -> exists f, p = PText f) /\ balanced o.
Proof. exact c_thm. Qed.
Print Assumptions C154_c.
Example C154_c_case :
  passed (preprocess (mkSettings true true Sim) false (built_for Can) [Hw; Terminal]) =
  Some [PText Types; PText Util; PText Xcp; PText Hw; PText Threads].
Proof. vm_compute. reflexivity. Qed.

(** C155: with the switch on, everything the guarded headers declare has C linkage in every
    C++ file whose braces match ... *)
Theorem C155_on : forall g t fs, Forall header fs -> g_guards g = true -> exists e o,
  preprocess g true (built_for t) fs = Done e o /\
  (balanced o -> forall h, guarded h -> Forall (fun d => 0 < d) (depths 0 h o)).
Proof. exact guards_linkage. Qed.
Print Assumptions C155_on.
Example C155_on_case :
  option_map (fun o => (walk 0 o, map (fun h => depths 0 h o) [Types; Util; Xcp; Hw; Tui; Timeout]))
    (passed (preprocess (mkSettings true false Tools) true (built_for Serial) [Timeout; Config; Tui; Xcp; Hw])) =
  Some (Some 0, [[2]; [1]; [1]; [1]; [1]; [1]]).
Proof. vm_compute. reflexivity. Qed.

(** ... but the functions of xcp_util.h and the types have C linkage in every C++ file,
    also with the switch off ... *)
Theorem C155_off_refuted : forall g t fs, Forall header fs -> exists e o,
  preprocess g true (built_for t) fs = Done e o /\
  Forall (fun d => 0 < d) (depths 0 Util o) /\ Forall (fun d => 0 < d) (depths 0 Types o).
Proof. exact util_linkage. Qed.
Print Assumptions C155_off_refuted.
Example C155_off_case :
  option_map (fun o => (walk 0 o, map (fun h => depths 0 h o) [Types; Util; Xcp; Hw; Tui; Timeout]))
    (passed (preprocess (mkSettings false false Sim) true (built_for Can) [Timeout; Tui; Xcp; Hw])) =
  Some (Some 0, [[2]; [1]; [0]; [0]; [1]; [1]]).
Proof. vm_compute. reflexivity. Qed.

(** ... and those of xcp.h have C++ linkage in every file that starts with xcp.h, whatever
    the switch says. *)
Theorem C155_xcp_refuted : forall g t fs, Forall header fs -> exists e o,
  preprocess g true (built_for t) (Xcp :: fs) = Done e o /\ depths 0 Xcp o = [0] /\ depths 0 Util o = [1].
Proof. exact xcp_linkage. Qed.
Print Assumptions C155_xcp_refuted.
Example C155_xcp_case :
  option_map (fun o => map (fun h => depths 0 h o) [Util; Xcp])
    (passed (preprocess (mkSettings true true Tools) true (built_for Can) [Xcp; Util; Config; Hw])) = Some [[1]; [0]].
Proof. vm_compute. reflexivity. Qed.

(** C156: the debugging output is compiled in if and only if the configuration asks for a
    debug build and is included before all that read xcp_macros.h. *)
Theorem C156_debug : forall g cpp t fs, Forall header fs -> exists e o,
  preprocess g cpp (built_for t) fs = Done e o /\
  (value e Prints = 1 <-> g_debug g = true /\ existsb reads_macros fs = true /\
                          first (fun f => is_config f || reads_macros f) fs = Some Config).
Proof. exact debug_thm. Qed.
Print Assumptions C156_debug.
Example C156_debug_case :
  macro (preprocess (mkSettings false true Sim) false (built_for Ether) [Config; Xcp; Eth; Hw]) Prints = Some 1 /\
  macro (preprocess (mkSettings false true Sim) false (built_for Ether) [Xcp; Eth; Hw]) Prints = Some 0.
Proof. split; vm_compute; reflexivity. Qed.

(** Hence the setting has no effect on a file that reads the configuration through xcp.h:
    nothing is printed, and the functions that tests are to call stay static. *)
Theorem C156_debug_refuted : forall g cpp t fs, Forall header fs -> existsb reads_macros fs = true ->
  first (fun f => is_config f || reads_macros f) fs <> Some Config -> exists e o,
  preprocess g cpp (built_for t) fs = Done e o /\ value e Prints = 0 /\ value e Static = 1.
Proof. exact debug_refuted. Qed.
Print Assumptions C156_debug_refuted.
Example C156_debug_refuted_case : (* src/xcp.c 27-29, src/tl/xcp_tl_timeout.c 27-29 *)
  let g := mkSettings false true Sim in
  macro (preprocess g false (built_for Ether) [Xcp; Hw]) Prints = Some 0 /\
  macro (preprocess g false (built_for Ether) [Xcp; Hw]) Build = Some 1 /\
  macro (preprocess g false (built_for Ether) [Timeout; Xcp]) Static = Some 1.
Proof. repeat split; vm_compute; reflexivity. Qed.

(** XcpUtl_Hexdump and XcpUtl_Itoa, declared in xcp_util.h, are compiled in no
    configuration when src/xcp_util.c is a file of its own ... *)
Theorem C156_util_refuted : forall g cpp o, o_layer o = None ->
  exists e out, preprocess g cpp o [UtilC] = Done e out /\ ~ compiled UtilC out.
Proof. exact util_c_alone. Qed.
Print Assumptions C156_util_refuted.
Example C156_util_case :
  passed (preprocess (mkSettings false true Sim) false (built_for Ether) [UtilC]) = Some [PText Types; PText Util].
Proof. vm_compute. reflexivity. Qed.

(** ... but they are where all sources are one file, in debug builds; their output is not. *)
Theorem C156_util_joined : forall g cpp t,
  exists e out, preprocess g cpp (built_for t) [Xcp; UtilC] = Done e out /\ (compiled UtilC out <-> g_debug g = true) /\ value e Prints = 0.
Proof. exact util_c_joined. Qed.
Print Assumptions C156_util_joined.
Example C156_util_joined_case :
  passed (preprocess (mkSettings false true Tools) false (built_for Can) [Xcp; UtilC]) = Some [PText Types; PText Util; PText Xcp; PText UtilC].
Proof. vm_compute. reflexivity. Qed.

(** C157: with tools/xcp_config.h and a transport on the command line, all files agree on
    the transport, and it is that one ... *)
Theorem C157_tools : forall g cpp o, g_template g = Tools -> o_layer o = None ->
  (o_can o || o_bth o || o_eth o || o_sxi o) = true ->
  exists e1 o1 e2 o2 t, preprocess g cpp o [Xcp] = Done e1 o1 /\ preprocess g cpp o [Config; Xcp] = Done e2 o2 /\
    selects e1 t /\ selects e2 t /\ (forall u, o = built_for u -> t = u).
Proof. exact tools_agrees. Qed.
Print Assumptions C157_tools.
Example C157_tools_case :
  macro (preprocess (mkSettings false true Tools) false (built_for Serial) [Xcp]) Layer = Some 6 /\
  macro (preprocess (mkSettings false true Tools) false (built_for Serial) [Config; Xcp]) Layer = Some 6.
Proof. split; vm_compute; reflexivity. Qed.

(** ... but without one, a file that includes the configuration first is built for the
    serial line, while the others are rejected. *)
Theorem C157_tools_refuted : forall g cpp, g_template g = Tools ->
  preprocess g cpp plain [Xcp] = Reject ErrorLine /\
  exists e o, preprocess g cpp plain [Config; Xcp] = Done e o /\ selects e Serial.
Proof. exact tools_silent. Qed.
Print Assumptions C157_tools_refuted.
Example C157_tools_refuted_case :
  macro (preprocess (mkSettings false true Tools) true plain [Config]) Layer = Some 0 /\
  passed (preprocess (mkSettings false true Tools) true plain [Xcp]) = None.
Proof. split; vm_compute; reflexivity. Qed.

(** With examples/xcpsim/xcp_config.h a file that includes the configuration first is built
    for CAN, whatever the command line says; the others for what it says, except that
    TP_SXI selects no transport. *)
Theorem C157_sim_refuted : forall g cpp t, g_template g = Sim ->
  (exists e o, preprocess g cpp (built_for t) [Config; Xcp] = Done e o /\ selects e Can) /\
  (exists e o, preprocess g cpp (built_for t) [Xcp] = Done e o /\ (t <> Serial -> selects e t) /\ (t = Serial -> e Layer = None)).
Proof. exact sim_disagrees. Qed.
Print Assumptions C157_sim_refuted.
Example C157_sim_case :
  macro (preprocess (mkSettings false true Sim) false (built_for Ether) [Xcp]) Layer = Some 5 /\
  macro (preprocess (mkSettings false true Sim) false (built_for Ether) [Config; Xcp]) Layer = Some 1.
Proof. split; vm_compute; reflexivity. Qed.

(** The two transports that are to compile to nothing unless they are selected are compiled
    in every build that contains their files ... *)
Theorem C157_alone_refuted : forall g cpp t, exists e1 o1 e2 o2,
  preprocess g cpp (built_for t) [Sxi] = Done e1 o1 /\ compiled Sxi o1 /\
  preprocess g cpp (built_for t) [ArduinoCan] = Done e2 o2 /\ compiled ArduinoCan o2.
Proof. exact alone_thm. Qed.
Print Assumptions C157_alone_refuted.
Example C157_alone_case :
  passed (preprocess (mkSettings false false Tools) true (built_for Ether) [ArduinoCan]) = Some [PText ArduinoCan].
Proof. vm_compute. reflexivity. Qed.

(** ... and only if selected where all sources are one file. *)
Theorem C157_joined : forall g cpp t, exists e o,
  preprocess g cpp (built_for t) [Xcp; Sxi; ArduinoCan] = Done e o /\
  (compiled Sxi o <-> g_template g = Tools /\ t = Serial) /\ (compiled ArduinoCan o <-> t = Can).
Proof. exact joined_thm. Qed.
Print Assumptions C157_joined.
Example C157_joined_case :
  passed (preprocess (mkSettings false false Tools) false (built_for Serial) [Xcp; Sxi; ArduinoCan]) =
  Some [PText Types; PText Util; PText Xcp; PText Timeout; PText Sxi].
Proof. vm_compute. reflexivity. Qed.
