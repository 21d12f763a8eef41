(** Model of the flash emulation on Windows (flsemu/common.c with flsemu/win/flsemu.c), of its
    shutdown, and of Xcp_CopyMemory with the address mapper of the example application. *)
From Coq Require Import NArith List Bool.
From Verif Require Import Base Flsemu.
Import ListNotations.
Open Scope N_scope.

(** common.c 258-273: FlsEmu_AllocatedSize, of a valid segment with pages of [page] bytes.
    The conditional operator binds less tightly than the sum. *)
Definition allocated_size (gran page : N) : out N :=
  if gran =? 0 then UB DivZero
  else Ok (u32 (gran * (if negb (page / gran + (if negb (page mod gran =? 0) then 1 else 0) =? 0) then 1 else 0))).

(** A view of a file: [v_len] bytes from [v_off] on are found at the address [v_addr]. *)
Record view := mkView { v_addr : N; v_off : N; v_len : N }.

(** flsemu/flsemu.h 73-78: FlsEmu_PersistentArrayType.  [wa_open] is the state of the mapping
    handle, [wa_view] the mapping address with what the system knows of it ([None] for a
    null pointer).  [wa_page] is never written on Windows: it is what malloc() left there. *)
Record warray := mkWArr { wa_file : list N; wa_open : bool; wa_view : option view; wa_page : N }.

(** flsemu/flsemu.h 80-91: FlsEmu_SegmentType, the members used below. *)
Record wseg := mkWSeg { ws_mem : N; ws_page : N; ws_base : N; ws_alloc : N; ws_array : option warray; ws_current : N }.
Record wfls := mkWFls { wf_init : bool; wf_gran : N; wf_segs : list wseg }.

Definition wwith (a : warray) (cur : N) (g : wseg) : wseg :=
  mkWSeg (ws_mem g) (ws_page g) (ws_base g) (ws_alloc g) (Some a) cur.
Definition wset (i : N) (g : wseg) (f : wfls) : wfls := mkWFls (wf_init f) (wf_gran f) (updN (wf_segs f) i g).

Definition with_wseg {A} (f : wfls) (i : N) (none : A) (k : wseg -> out A) : out A :=
  if negb (wf_init f) then UB Assert
  else match getN (wf_segs f) i with None => Ok none | Some g => k g end.
Definition warray_of (g : wseg) : out warray :=
  match ws_array g with None => UB NullPtr | Some a => Ok a end.

(** MapViewOfFile(): [pick] is the address the system chooses, [None] if it has no room.
    The call also fails if the handle is closed, the offset is not a multiple of the granularity
    or the view reaches beyond the file. *)
Definition map_view (pick : option N) (gran off len : N) (a : warray) : option view :=
  match pick with
  | Some v => if wa_open a && (off mod gran =? 0) && (off + len <=? lenN (wa_file a)) then Some (mkView v off len) else None
  | None => None
  end.

(** win/flsemu.c 148-169: FlsEmu_MapAddress.  UnmapViewOfFile() fails for a null pointer. *)
Definition map_address (pick : option N) (gran off len : N) (a : warray) : warray * bool :=
  match wa_view a with
  | None => (mkWArr (wa_file a) false None (wa_page a), false)
  | Some _ =>
      match map_view pick gran off len a with
      | Some v => (mkWArr (wa_file a) (wa_open a) (Some v) (wa_page a), true)
      | None => (mkWArr (wa_file a) false None (wa_page a), false)
      end
  end.

(** win/flsemu.c 125-143: FlsEmu_SelectPage. *)
Definition wselect_page (pick : option N) (i page : N) (f : wfls) : out wfls :=
  with_wseg f i f (fun g =>
    a <- warray_of g ;;
    if wa_page a =? page then Ok f
    else
      let '(a1, ok) := map_address pick (wf_gran f) (u32 (ws_alloc g * page)) (ws_page g) a in
      Ok (wset i (wwith a1 (if ok then page else ws_current g) g) f)).

(** common.c 151-161: FlsEmu_BasePointer; 0 is the null pointer. *)
Definition wbase (a : warray) : N := match wa_view a with Some v => v_addr v | None => 0 end.

(** common.c 229-253: FlsEmu_MemoryMapper on a machine with pointers of 64 bits.  [pick] is
    where the system puts a view created by the call. *)
Inductive wmapped := WMappedTo (a : N) | WInvalid | WNotMapped.
Fixpoint wmap_loop (pick : option N) (n : nat) (i : N) (addr ext : N) (f : wfls) : out (wfls * wmapped) :=
  match n with
  | O => Ok (f, WNotMapped)
  | S k =>
      with_wseg f i (f, WNotMapped) (fun g =>
        a <- warray_of g ;;                                                          (* 237 *)
        if (ws_base g <=? addr) && (addr <? ws_base g + ws_page g) then
          if ws_page g =? 0 then UB DivZero
          else if ws_mem g / ws_page g <=? ext then Ok (f, WInvalid)
          else f1 <- wselect_page pick i ext f ;;
               Ok (f1, WMappedTo ((wbase a + (2 ^ 64 - ws_base g) + addr) mod 2 ^ 64))
        else wmap_loop pick k (i + 1) addr ext f)
  end.
Definition wmemory_mapper (pick : option N) (addr ext : N) (f : wfls) : out (wfls * wmapped) :=
  wmap_loop pick (length (wf_segs f)) 0 addr ext f.

(** ** Shutdown *)

(** posix/flsemu.c 63-77 and win/flsemu.c 77-88: FlsEmu_Close.  Both begin with FlsEmu_Flush,
    which follows the pointer to the array (posix 88, win 107).  The array
    is freed; the pointer to it stays, which is not modelled: nothing may use it after
    FlsEmu_DeInit.  Simplification: no call of the operating system fails. *)
Definition fls_close (i : N) (f : fls) : out fls := with_seg f i f (fun g => a <- array_of g ;; Ok f).

(** common.c 83-91: FlsEmu_DeInit. *)
Fixpoint close_all (n : nat) (i : N) (f : fls) : out fls :=
  match n with O => Ok f | S k => f1 <- fls_close i f ;; close_all k (i + 1) f1 end.
Definition fls_deinit (f : fls) : out fls :=
  f1 <- close_all (length (f_segs f)) 0 f ;; Ok (mkFls false (f_gran f1) (f_segs f1)).

(** ** Xcp_CopyMemory with the mapper of the example application *)

(** Where an access goes: an address of the process, or [o] bytes into the mapping of segment [i]. *)
Inductive place := Raw (a : N) | InSeg (i o : N).

(** examples/xcpsim/app_config.c 128-130: Xcp_HookFunction_AddressMapper, as called in src/xcp.c
    2130 and 2136: the address is replaced only if it is mapped, the result is not looked at. *)
Definition hook (ext addr : N) (f : fls) : out (fls * place) :=
  '(f1, r) <- memory_mapper addr ext f ;;
  Ok (f1, match r with MappedTo i o => InSeg i o | Invalid | NotMapped => Raw addr end).

(** A byte of a mapping; outside of the mapping or of its file there is none. *)
Definition seg_get (f : fls) (i o : N) : out N :=
  match getN (f_segs f) i with
  | Some g => match g_array g with
              | Some a => if o <? g_mem g then match getN (a_file a) (a_off a + o) with Some b => Ok b | None => UB OobBuffer end else UB OobBuffer
              | None => UB NullPtr
              end
  | None => UB OobTable
  end.
Definition seg_put (f : fls) (i o b : N) : out fls :=
  match getN (f_segs f) i with
  | Some g => match g_array g with
              | Some a => if (o <? g_mem g) && (a_off a + o <? lenN (a_file a))
                          then Ok (set_seg i (with_array (mkArray (updN (a_file a) (a_off a + o) b) (a_off a) (a_page a)) g) f)
                          else UB OobBuffer
              | None => UB NullPtr
              end
  | None => UB OobTable
  end.

Definition fetch (m : mem) (f : fls) (p : place) (k : N) : out N :=
  match p with Raw a => Ok (m (a + k)) | InSeg i o => seg_get f i (o + k) end.
Definition store (m : mem) (f : fls) (p : place) (k b : N) : out (mem * fls) :=
  match p with
  | Raw a => Ok ((fun x => if x =? a + k then b else m x), f)
  | InSeg i o => f1 <- seg_put f i (o + k) b ;; Ok (m, f1)
  end.

(** src/xcp_util.c 33-44: XcpUtl_MemCopy, byte by byte.  Simplification: the
    destination is not the null pointer. *)
Fixpoint copy_bytes (n : nat) (k : N) (d s : place) (m : mem) (f : fls) : out (mem * fls) :=
  match n with
  | O => Ok (m, f)
  | S j => b <- fetch m f s k ;; '(m1, f1) <- store m f d k b ;; copy_bytes j (k + 1) d s m1 f1
  end.

(** src/xcp.c 2121-2143: Xcp_CopyMemory, from (extension, address) to (extension, address). *)
Definition copy_memory (dst src : N * N) (len : N) (m : mem) (f : fls) : out (mem * fls) :=
  '(f1, d) <- hook (fst dst) (snd dst) f ;;
  '(f2, s) <- hook (fst src) (snd src) f1 ;;
  if len =? 0 then UB Assert else copy_bytes (N.to_nat len) 0 d s m f2.
