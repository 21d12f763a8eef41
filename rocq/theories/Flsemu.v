(** Model of the flash emulation: flsemu/common.c and flsemu/posix/flsemu.c. *)
From Coq Require Import NArith List Bool.
From Verif Require Import Base.
Import ListNotations.
Open Scope N_scope.

(** flsemu/flsemu.h 73-78: FlsEmu_PersistentArrayType.  [a_file] is the file behind the
    mapping (in place of the handles), [a_off] the file offset the mapping starts at.
    Simplification: mmap() honours the address hint, so that the mapping does not move. *)
Record array := mkArray { a_file : list N; a_off : N; a_page : N }.

(** flsemu/flsemu.h 80-91: FlsEmu_SegmentType.  Name, write size and allocated size are left
    out, they are not used by the functions below. *)
Record segment := mkSeg {
  g_mem : N; g_sector : N; g_page : N; g_blocks : N; g_base : N; g_array : option array; g_current : N }.

(** flsemu/common.c 60-62; [f_gran] is the size of a page of the operating system. *)
Record fls := mkFls { f_init : bool; f_gran : N; f_segs : list segment }.

Definition with_array (a : array) (g : segment) : segment :=
  mkSeg (g_mem g) (g_sector g) (g_page g) (g_blocks g) (g_base g) (Some a) (g_current g).
Definition with_current (p : N) (g : segment) : segment :=
  mkSeg (g_mem g) (g_sector g) (g_page g) (g_blocks g) (g_base g) (g_array g) p.
Definition set_seg (i : N) (g : segment) (f : fls) : fls := mkFls (f_init f) (f_gran f) (updN (f_segs f) i g).

(** flsemu/flsemu.h 55 and 56: FLSEMU_ASSERT_INITIALIZED and FLSEMU_VALIDATE_SEGMENT_IDX,
    with what the functions do next. *)
Definition with_seg {A} (f : fls) (i : N) (none : A) (k : segment -> out A) : out A :=
  if negb (f_init f) then UB Assert
  else match getN (f_segs f) i with None => Ok none | Some g => k g end.
Definition array_of (g : segment) : out array :=
  match g_array g with None => UB NullPtr | Some a => Ok a end.

(** common.c 93-149: FlsEmu_OpenCreate.  [numPages] is 0 when the loop begins, so that
    its body is never executed. *)
Definition open_create (i : N) (f : fls) : out fls := with_seg f i f (fun _ => Ok f).

(** common.c 72-81: FlsEmu_Init; [segs] is the configuration. *)
Fixpoint open_all (n : nat) (i : N) (f : fls) : out fls :=
  match n with O => Ok f | S k => f1 <- open_create i f ;; open_all k (i + 1) f1 end.
Definition fls_init (gran : N) (segs : list segment) : out fls :=
  open_all (length segs) 0 (mkFls true gran segs).

(** posix/flsemu.c 116-176: FlsEmu_OpenCreatePersitentArray on a file that exists.
    Simplification: no call of the operating system fails. *)
Definition open_array (file : list N) : array := mkArray file 0 0.

(** Writing [n] bytes [v] at [off] from the start of the mapping, which is
    [g_mem] bytes long and backed by the file: XcpUtl_MemSet. *)
Definition map_set (g : segment) (a : array) (off v n : N) : out array :=
  if g_mem g <? off + n then UB OobBuffer
  else if lenN (a_file a) <? a_off a + off + n then UB OobBuffer
  else Ok (mkArray (splice (a_file a) (a_off a + off) (repeat v (N.to_nat n))) (a_off a) (a_page a)).

(** common.c 163-173: FlsEmu_NumPages, of a valid segment. *)
Definition num_pages (g : segment) : out N :=
  if g_page g =? 0 then UB DivZero else Ok (g_mem g / g_page g).

(** common.c 175-193: FlsEmu_EraseSector.  [ptr] points to words of 16 bits. *)
Definition erase_sector (i addr : N) (f : fls) : out fls :=
  with_seg f i f (fun g =>
    let mask := u32 (g_sector g + (2 ^ 32 - 1)) in
    a <- array_of g ;;
    a1 <- map_set g a (2 * N.ldiff addr mask) 0xFF (g_sector g) ;;
    Ok (set_seg i (with_array a1 g) f)).

(** common.c 195-206: FlsEmu_ErasePage. *)
Definition erase_page (i page : N) (f : fls) : out fls :=
  with_seg f i f (fun g =>
    a <- array_of g ;;
    a1 <- map_set g a (u32 (g_page g * page)) 0xFF (g_page g) ;;
    Ok (set_seg i (with_current page (with_array a1 g)) f)).

(** common.c 208-227: FlsEmu_EraseBlock. *)
Definition erase_block (i block : N) (f : fls) : out fls :=
  with_seg f i f (fun g =>
    if negb (block <? g_blocks g) then UB Assert
    else
      let size := g_mem g / g_blocks g in
      a <- array_of g ;;
      a1 <- map_set g a (u32 (size * block)) 0xFF size ;;
      Ok (set_seg i (with_array a1 g) f)).

(** posix/flsemu.c 178-201: FlsEmu_SelectPage.  The number of the selected page is not
    stored.  mmap() fails for offsets that are no multiple of the system's page size,
    and [offset] becomes an int (line 101); then the process exits (lines 105-107). *)
Definition select_page (i page : N) (f : fls) : out fls :=
  with_seg f i f (fun g =>
    a <- array_of g ;;
    if a_page a =? page then Ok f
    else
      let offset := u32 (g_page g * page) in
      if (2 ^ 31 <=? offset) || negb (offset mod f_gran f =? 0) then UB Exit
      else Ok (set_seg i (with_array (mkArray (a_file a) offset (a_page a)) g) f)).

(** common.c 229-253: FlsEmu_MemoryMapper.  [MappedTo i o] is the address [o] bytes after
    the start of the mapping of segment [i].  Simplification: no segment ends beyond the
    address space. *)
Inductive mapped := MappedTo (i o : N) | Invalid | NotMapped.
Fixpoint map_loop (n : nat) (i : N) (addr ext : N) (f : fls) : out (fls * mapped) :=
  match n with
  | O => Ok (f, NotMapped)
  | S k =>
      with_seg f i (f, NotMapped) (fun g =>
        a <- array_of g ;;                                                           (* 237 *)
        if (g_base g <=? addr) && (addr <? g_base g + g_page g) then
          pages <- num_pages g ;;
          if pages <=? ext then Ok (f, Invalid)
          else f1 <- select_page i ext f ;; Ok (f1, MappedTo i (addr - g_base g))
        else map_loop k (i + 1) addr ext f)
  end.
Definition memory_mapper (addr ext : N) (f : fls) : out (fls * mapped) :=
  map_loop (length (f_segs f)) 0 addr ext f.
