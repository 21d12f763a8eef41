(** The DAQ configuration as printed by the user interface (src/hw/terminal.c). *)
From Coq Require Import NArith List Bool.
From Verif Require Import Base Config State Daq.
Import ListNotations.
Open Scope N_scope.

(** Words printed for the mode of a list. *)
Inductive flag := FDaq | FStim | FSelected | FStarted | FAlternating | FPidOff | FTimestamp.

(** Printed lines; the lists of a target with dynamic lists only are all called
    "dynamic" (XCP_MIN_DAQ is 0, inc/xcp.h 172-176), rulers are left out. *)
Inductive line :=
| LList (number first_pid : N) (mode : list flag)
| LOdt (number : N)
| LEntry (number address length : N)
| LTotal (bytes : N).

(** src/hw/terminal.c 332-351: the words for the mode. *)
Definition flags (mode : N) : list flag :=
  let bit m f := if N.land mode m =? 0 then [] else [f] in
  (if N.land mode 0x02 =? 0 then [FDaq] else [FStim]) ++
  bit 0x40 FSelected ++ bit 0x80 FStarted ++ bit 0x01 FAlternating ++ bit 0x20 FPidOff ++ bit 0x10 FTimestamp.

(** src/hw/terminal.c 356-360: the entry loop; [total] is a uint32_t.  The address
    goes through %08x, of which 32 bits are printed. *)
Fixpoint show_entries (c : cfg) (d : daqst) (l o : N) (n : nat) (k total : N) : out (list line * N) :=
  match n with
  | O => Ok ([], total)
  | S j =>
      i <- entry_index c d l o k ;;
      e <- ent_at d i ;;
      '(addr, len) <- entry_of (en_body e) ;;
      '(ls, tot) <- show_entries c d l o j (k + 1) ((total + len) mod 2 ^ 32) ;;
      Ok (LEntry k (addr mod 2 ^ 32) len :: ls, tot)
  end.

(** src/hw/terminal.c 353-361: the ODT loop. *)
Fixpoint show_odts (c : cfg) (d : daqst) (l : N) (n : nat) (o total : N) : out (list line * N) :=
  match n with
  | O => Ok ([], total)
  | S j =>
      i <- odt_index c d l o ;;
      '(nents, _) <- hdr_at d i ;;
      '(es, t1) <- show_entries c d l o (N.to_nat nents) 0 total ;;
      '(ls, t2) <- show_odts c d l j (o + 1) t1 ;;
      Ok (LOdt o :: es ++ ls, t2)
  end.

(** src/hw/terminal.c 318-364: the list loop; firstPid is not initialised when
    XcpDaq_GetFirstPid fails.  XcpDaq_GetListState returns the one shared state
    (src/xcp_daq.c 353-362). *)
Fixpoint show_lists (c : cfg) (d : daqst) (n : nat) (l : N) : out (list line) :=
  match n with
  | O => Ok []
  | S j =>
      '(nodts, _) <- hdr_at d l ;;
      p <- first_pid c d l ;;
      match p with
      | None => UB Uninit
      | Some pid =>
          '(os, total) <- show_odts c d l (N.to_nat nodts) 0 0 ;;
          ls <- show_lists c d j (l + 1) ;;
          Ok (LList l pid (flags (d_mode d)) :: os ++ LTotal total :: ls)
      end
  end.

(** src/hw/terminal.c 304-367: XcpDaq_PrintDAQDetails. *)
Definition show_daq (c : cfg) (s : st) : out (list line) :=
  show_lists c (s_daq s) (N.to_nat (d_lcnt (s_daq s))) 0.

(** src/hw/terminal.c 369-398: XcpDaq_Info: processor state ("Running" or
    "Stopped", the only ones that Xcp_Init and START_STOP_SYNCH leave behind,
    src/xcp_daq.c 287, src/xcp.c 1710, 1713), entities in use, size of the pool. *)
Definition daq_info (c : cfg) (s : st) : bool * N * N :=
  (d_run (s_daq s), d_ecnt (s_daq s), c_max_ent c).
