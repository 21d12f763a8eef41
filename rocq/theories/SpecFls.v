(** Vocabulary for the flash emulation (C61, C62, C70). *)
From Coq Require Import NArith List Bool.
From Verif Require Import Base Flsemu.
Import ListNotations.
Open Scope N_scope.

(** Exactly the [n] bytes from [lo] on have been set to 0xFF. *)
Definition erased (before after : list N) (lo n : N) : Prop :=
  forall x, getN after x = if (lo <=? x) && (x <? lo + n) then (if x <? lenN before then Some 0xFF else None) else getN before x.

(** Segment [i] is open with the file contents [file], and its mapping starts at [off]. *)
Definition open_at (f : fls) (i : N) (g : segment) (file : list N) (off : N) : Prop :=
  f_init f = true /\ getN (f_segs f) i = Some g /\ exists p, g_array g = Some (mkArray file off p).

(** The geometry of a segment with its file: whole pages, mappable, less than 2 GB. *)
Definition sound (gran : N) (g : segment) (file : list N) : Prop :=
  0 < g_page g /\ g_mem g = g_page g * (g_mem g / g_page g) /\ lenN file = g_mem g /\ g_mem g < 2 ^ 31 /\
  g_page g mod gran = 0 /\ 0 < gran.

(** All other segments are as before. *)
Definition others_kept (f f' : fls) (i : N) : Prop := forall j, j <> i -> getN (f_segs f') j = getN (f_segs f) j.

(** The first segment whose window contains the address. *)
Definition in_window (g : segment) (addr : N) : bool := (g_base g <=? addr) && (addr <? g_base g + g_page g).
Fixpoint hit (segs : list segment) (i addr : N) : option (N * segment) :=
  match segs with
  | [] => None
  | g :: t => if in_window g addr then Some (i, g) else hit t (i + 1) addr
  end.

(** The page other than 0 that was mapped last in segment [i]; 0 if there was none. *)
Fixpoint last_page (segs : list segment) (i : N) (last : N) (calls : list (N * N)) : N :=
  match calls with
  | [] => last
  | (addr, ext) :: t =>
      last_page segs i
        (match hit segs 0 addr with
         | Some (j, g) => if (j =? i) && negb (ext =? 0) && (ext <? g_mem g / g_page g) then ext else last
         | None => last
         end) t
  end.

(** All segments have been opened and have their first page mapped. *)
Definition fresh (gran : N) (segs : list segment) : Prop :=
  Forall (fun g => exists file, g_array g = Some (open_array file) /\ sound gran g file) segs.

(** Calls of the memory mapper, one after the other. *)
Fixpoint map_calls (calls : list (N * N)) (f : fls) : out fls :=
  match calls with
  | [] => Ok f
  | (addr, ext) :: t => '(f1, _) <- memory_mapper addr ext f ;; map_calls t f1
  end.

(** Contents of the file of segment [i]. *)
Definition file_of (segs : list segment) (i : N) : list N :=
  match getN segs i with Some g => match g_array g with Some a => a_file a | None => [] end | None => [] end.

(** What a pointer [o] bytes behind the start of the mapping of segment [i] points to. *)
Definition byte_at (f : fls) (i o : N) : option N :=
  match getN (f_segs f) i with
  | Some g => match g_array g with Some a => getN (a_file a) (a_off a + o) | None => None end
  | None => None
  end.

(** A segment of four pages of 16 bytes, in sectors of 8 and two blocks (and a system
    with pages of 16 bytes). *)
Definition demo_file : list N := map N.of_nat (seq 1 64).
Definition demo_seg (base : N) : segment := mkSeg 64 8 16 2 base (Some (open_array demo_file)) 0.
Definition demo_fls : fls := mkFls true 16 [demo_seg 0x1000; demo_seg 0x2000].
Definition contents (r : out fls) (i : N) : option (list N) := match r with Ok f => Some (file_of (f_segs f) i) | _ => None end.

