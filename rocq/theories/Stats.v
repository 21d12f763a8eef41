(** The statistics shown in the system information (src/hw/terminal.c 216-271). *)
From Coq Require Import NArith ZArith List Bool.
From Verif Require Import Base Config State Core.
Import ListNotations.
Open Scope N_scope.

(** printf with "%d" of a uint32_t (src/hw/terminal.c 261-263).  The conversion
    reads the argument as an int of 32 bits in two's complement, the behaviour of
    the C libraries the program is built with; the C standard leaves it open. *)
Definition percent_d (v : N) : Z := if v <? 2 ^ 31 then Z.of_N v else (Z.of_N v - 2 ^ 32)%Z.

(** src/hw/terminal.c 258-264: the numbers behind "CTOs rec'd", "CROs busy" and
    "CROs send".  Simplification: the texts around the numbers and the other lines
    of SystemInformation, all constants of the configuration, are left out. *)
Record shown := mkShown { sh_ctos : Z; sh_busy : Z; sh_send : Z }.
Definition system_information (s : st) : shown :=
  mkShown (percent_d (s_ctos s)) (percent_d (s_crosb s)) (percent_d (s_cros s)).
