(** Vocabulary for the flash emulation on Windows and behind Xcp_CopyMemory (C105-C108). *)
From Coq Require Import NArith List Bool.
From Verif Require Import Base Flsemu SpecFls FlsWin.
Import ListNotations.
Open Scope N_scope.

(** [n] is the least multiple of [g] that is not less than [x]. *)
Definition least_multiple (g x n : N) : Prop := (g | n) /\ x <= n /\ forall k, (g | k) -> x <= k -> n <= k.

(** The first segment whose window contains the address. *)
Fixpoint whit (segs : list wseg) (i addr : N) : option (N * wseg) :=
  match segs with
  | [] => None
  | g :: t => if (ws_base g <=? addr) && (addr <? ws_base g + ws_page g) then Some (i, g) else whit t (i + 1) addr
  end.

(** The address [a] shows byte [x] of the file of segment [i]. *)
Definition shows (f : wfls) (a i x : N) : Prop :=
  exists g arr v, getN (wf_segs f) i = Some g /\ ws_array g = Some arr /\ wa_view arr = Some v /\
    v_addr v <= a < v_addr v + v_len v /\ x = v_off v + (a - v_addr v).

(** No view of any segment contains the address: using it is an access violation. *)
Definition dangling (f : wfls) (a : N) : Prop := forall i x, ~ shows f a i x.

(** A segment just opened: the whole file is in view at [va]; every page can be mapped. *)
Definition wopened (gran : N) (g : wseg) (va : N) : Prop :=
  exists file q, ws_array g = Some (mkWArr file true (Some (mkView va 0 (lenN file))) q) /\
    0 < gran /\ 0 < ws_page g /\ ws_alloc g mod gran = 0 /\ lenN file < 2 ^ 32 /\
    (forall p, p < ws_mem g / ws_page g -> ws_alloc g * p + ws_page g <= lenN file) /\
    va + lenN file < 2 ^ 64 /\ ws_base g < 2 ^ 64.
Definition view_addr (g : wseg) : N := match ws_array g with Some a => wbase a | None => 0 end.
Definition stored_page (g : wseg) : N := match ws_array g with Some a => wa_page a | None => 0 end.
Definition wfresh (gran : N) (segs : list wseg) : Prop := Forall (fun g => wopened gran g (view_addr g)) segs.

(** Calls of the mapper: where the system would put a new view, address and extension. *)
Fixpoint wmap_calls (calls : list (option N * N * N)) (f : wfls) : out wfls :=
  match calls with
  | [] => Ok f
  | (pick, addr, ext) :: t => '(f1, _) <- wmemory_mapper pick addr ext f ;; wmap_calls t f1
  end.

(** The system puts a new view of a segment where its old view was. *)
Definition stays (segs : list wseg) (call : option N * N * N) : Prop :=
  forall i g, whit segs 0 (snd (fst call)) = Some (i, g) -> fst (fst call) = Some (view_addr g).

(** The page mapped last in segment [i] other than the one stored in its array. *)
Fixpoint wlast (segs : list wseg) (i : N) (last : N) (calls : list (option N * N * N)) : N :=
  match calls with
  | [] => last
  | (_, addr, ext) :: t =>
      wlast segs i
        (match whit segs 0 addr with
         | Some (j, g) => if (j =? i) && negb (ext =? stored_page g) && (ext <? ws_mem g / ws_page g) then ext else last
         | None => last
         end) t
  end.

(** Segment [i] has no view. *)
Definition viewless (f : wfls) (i : N) : Prop :=
  exists g a, getN (wf_segs f) i = Some g /\ ws_array g = Some a /\ wa_view a = None.

(** [after] is [before] with the bytes [bs] from [lo] on. *)
Definition replaced (before after : list N) (lo : N) (bs : list N) : Prop :=
  lenN after = lenN before /\ forall x, getN after x = if (lo <=? x) && (x <? lo + lenN bs) then getN bs (x - lo) else getN before x.

(** Two segments with pages of 16 and of 32 bytes, on a system with a granularity of 16;
    malloc() happened to leave 3 and 500 in the arrays. *)
Definition wdemo_seg (base page va q : N) : wseg :=
  mkWSeg 64 page base 16 (Some (mkWArr demo_file true (Some (mkView va 0 64)) q)) 0.
Definition wdemo : wfls := mkWFls true 16 [wdemo_seg 0x1000 16 0x70000 3; wdemo_seg 0x2000 32 0x80000 500].
(** The byte an address shows. *)
Definition wpeek (f : wfls) (a : N) : option N :=
  fold_right (fun g r => match ws_array g with
                         | Some arr => match wa_view arr with
                                       | Some v => if (v_addr v <=? a) && (a <? v_addr v + v_len v) then getN (wa_file arr) (v_off v + (a - v_addr v)) else r
                                       | None => r
                                       end
                         | None => r
                         end) None (wf_segs f).
