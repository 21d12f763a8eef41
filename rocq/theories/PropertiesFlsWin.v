(** C105-C108: the flash emulation on Windows, its shutdown, and memory access through it. *)
From Coq Require Import NArith List Bool Lia.
From Verif Require Import Base Flsemu SpecFls FlsWin SpecFlsWin ProofsFlsWin.
Import ListNotations.
Open Scope N_scope.

(** ** C105 The allocated size of a page *)

(** For pages not larger than the granularity of the system, FlsEmu_AllocatedSize rounds up, ... *)
Theorem C105_size : forall gran page, 0 < gran < 2 ^ 32 -> 1 <= page <= gran ->
  exists n, allocated_size gran page = Ok n /\ least_multiple gran page n.
Proof. exact alloc_right. Qed.
Print Assumptions C105_size.

(** ... for all larger pages the result is too small. *)
Theorem C105_refuted : forall gran page, 0 < gran < 2 ^ 32 -> gran < page -> page < 2 ^ 32 ->
  exists n, allocated_size gran page = Ok n /\ n < page /\ ~ least_multiple gran page n.
Proof. exact alloc_wrong. Qed.
Print Assumptions C105_refuted.

(** The pages of the example application: 16 KB and 4 KB, on Windows (64 KB) and Linux (4 KB). *)
Example C105_case : allocated_size 65536 0x4000 = Ok 65536 /\ allocated_size 4096 4096 = Ok 4096 /\ allocated_size 4096 0x4000 = Ok 4096.
Proof. repeat split; vm_compute; reflexivity. Qed.

(** ** C106 Mapping on Windows *)

(** As long as the system puts every new view where the old one was, the pointer returned shows the
    byte demanded, [alloc] bytes apart for each page; for the page whose number
    malloc() left in the array, however, a byte of the page mapped last. *)
Theorem C106_mapping : forall gran segs calls pick addr ext, wfresh gran segs -> Forall (stays segs) (calls ++ [(pick, addr, ext)]) ->
  exists f f' r, wmap_calls calls (mkWFls true gran segs) = Ok f /\ wmemory_mapper pick addr ext f = Ok (f', r) /\
    match whit segs 0 addr with
    | None => r = WNotMapped
    | Some (i, g) =>
        if ext <? ws_mem g / ws_page g then
          exists a, r = WMappedTo a /\ shows f' a i (ws_alloc g * (if ext =? stored_page g then wlast segs i 0 calls else ext) + (addr - ws_base g))
        else r = WInvalid
    end.
Proof. exact wmapping_thm. Qed.
Print Assumptions C106_mapping.

(** When the system puts the view elsewhere, the pointer returned is that of the old view. *)
Theorem C106_moved_refuted : forall gran segs calls va addr ext i g, wfresh gran segs -> Forall (stays segs) calls ->
  whit segs 0 addr = Some (i, g) -> ext < ws_mem g / ws_page g -> ext <> stored_page g ->
  va + ws_page g <= view_addr g \/ view_addr g + ws_page g <= va ->
  exists f f', wmap_calls calls (mkWFls true gran segs) = Ok f /\
    wmemory_mapper (Some va) addr ext f = Ok (f', WMappedTo (view_addr g + (addr - ws_base g))) /\
    (forall x, ~ shows f' (view_addr g + (addr - ws_base g)) i x) /\
    shows f' (va + (addr - ws_base g)) i (ws_alloc g * ext + (addr - ws_base g)).
Proof. exact wmoved_thm. Qed.
Print Assumptions C106_moved_refuted.

(** When it has no room, the pointer is returned nevertheless, and no later call brings the segment back. *)
Theorem C106_lost_refuted : forall gran segs calls addr ext i g later, wfresh gran segs -> Forall (stays segs) calls ->
  whit segs 0 addr = Some (i, g) -> ext < ws_mem g / ws_page g -> ext <> stored_page g ->
  exists f f1, wmap_calls calls (mkWFls true gran segs) = Ok f /\
    wmemory_mapper None addr ext f = Ok (f1, WMappedTo (view_addr g + (addr - ws_base g))) /\
    forall f2, wmap_calls later f1 = Ok f2 -> viewless f2 i.
Proof. exact wlost_thm. Qed.
Print Assumptions C106_lost_refuted.

(** Page 2 of the first segment; page 3, whose number is in the array; page 1 of the second segment, which
    overlaps page 0 as the allocated size is less than the page; a view that has moved. *)
Example C106_case :
  wfresh 16 (wf_segs wdemo) /\ Forall (stays (wf_segs wdemo)) [(Some 0x70000, 0x1003, 2)] /\
  match wmemory_mapper (Some 0x70000) 0x1003 2 wdemo with
  | Ok (f, WMappedTo a) => (a, wpeek f a, match wmemory_mapper (Some 0x70000) 0x1003 3 f with Ok (f1, WMappedTo a1) => wpeek f1 a1 | _ => None end)
  | _ => (0, None, None)
  end = (0x70003, Some 36, Some 36) /\
  match wmemory_mapper (Some 0x80000) 0x2000 1 wdemo with Ok (f, WMappedTo a) => wpeek f a | _ => None end = Some 17 /\
  match wmemory_mapper (Some 0x90000) 0x1003 2 wdemo with Ok (f, WMappedTo a) => (a, wpeek f a, wpeek f 0x90003) | _ => (0, None, None) end = (0x70003, None, Some 36).
Proof.
  split.
  - repeat constructor.
    + exists demo_file, 3. repeat split. intros p H. change (ws_mem (wdemo_seg 0x1000 16 0x70000 3) / ws_page (wdemo_seg 0x1000 16 0x70000 3)) with 4 in H.
      cbn [wdemo_seg ws_alloc ws_page]. change (lenN demo_file) with 64. lia.
    + exists demo_file, 500. repeat split. intros p H. change (ws_mem (wdemo_seg 0x2000 32 0x80000 500) / ws_page (wdemo_seg 0x2000 32 0x80000 500)) with 2 in H.
      cbn [wdemo_seg ws_alloc ws_page]. change (lenN demo_file) with 64. lia.
  - split; [|repeat split; vm_compute; reflexivity]. repeat constructor. intros i g H. vm_compute in H. injection H as <- <-. reflexivity.
Qed.

(** ** C107 Shutdown *)

(** With all segments open, FlsEmu_DeInit ends and the module is unusable until it is initialised, ... *)
Theorem C107_deinit : forall gran segs, Forall (fun g => g_array g <> None) segs ->
  exists f, fls_deinit (mkFls true gran segs) = Ok f /\ f_init f = false /\ forall i addr, erase_sector i addr f = UB Assert.
Proof. exact deinit_open. Qed.
Print Assumptions C107_deinit.

(** ... but after FlsEmu_Init it follows a null pointer. *)
Theorem C107_refuted : forall gran segs, segs <> [] -> Forall (fun g => g_array g = None) segs ->
  exists f, fls_init gran segs = Ok f /\ fls_deinit f = UB NullPtr.
Proof. exact deinit_null. Qed.
Print Assumptions C107_refuted.
(** Every segment is closed: one that is not open, at any place, is enough for that. *)
Theorem C107_each_refuted : forall gran segs, Exists (fun g => g_array g = None) segs -> fls_deinit (mkFls true gran segs) = UB NullPtr.
Proof. exact deinit_some_null. Qed.
Print Assumptions C107_each_refuted.

Example C107_case :
  Forall (fun g => g_array g <> None) (f_segs demo_fls) /\ fls_deinit demo_fls = Ok (mkFls false 16 (f_segs demo_fls)) /\
  fls_init 4096 [mkSeg 4096 4 4096 1 0x4000 None 0] = Ok (mkFls true 4096 [mkSeg 4096 4 4096 1 0x4000 None 0]) /\
  fls_deinit (mkFls true 4096 [mkSeg 4096 4 4096 1 0x4000 None 0]) = UB NullPtr /\
  fls_deinit (mkFls true 16 (f_segs demo_fls ++ [mkSeg 4096 4 4096 1 0x4000 None 0])) = UB NullPtr.
Proof. split; [repeat constructor; discriminate|]. repeat split; vm_compute; reflexivity. Qed.

(** ** C108 Memory access through the mapper *)

(** Reading from a segment delivers the bytes of the page demanded (page 0: of the page demanded last) and
    changes nothing else, ... *)
Theorem C108_read : forall gran segs calls de da se sa len m i g, fresh gran segs ->
  hit segs 0 da = None -> hit segs 0 sa = Some (i, g) -> se < g_mem g / g_page g -> 1 <= len -> sa - g_base g + len <= g_page g ->
  let from := g_page g * (if se =? 0 then last_page segs i 0 calls else se) + (sa - g_base g) in
  exists f m' f', map_calls calls (mkFls true gran segs) = Ok f /\ copy_memory (de, da) (se, sa) len m f = Ok (m', f') /\
    (forall x, Some (m' x) = if (da <=? x) && (x <? da + len) then getN (file_of segs i) (from + (x - da)) else Some (m x)) /\
    forall j, file_of (f_segs f') j = file_of segs j.
Proof. exact upload_thm. Qed.
Print Assumptions C108_read.

(** ... writing replaces exactly the bytes addressed. *)
Theorem C108_write : forall gran segs calls de da se sa len m i g, fresh gran segs ->
  hit segs 0 sa = None -> hit segs 0 da = Some (i, g) -> de < g_mem g / g_page g -> 1 <= len -> da - g_base g + len <= g_page g ->
  let to := g_page g * (if de =? 0 then last_page segs i 0 calls else de) + (da - g_base g) in
  exists f f', map_calls calls (mkFls true gran segs) = Ok f /\ copy_memory (de, da) (se, sa) len m f = Ok (m, f') /\
    replaced (file_of segs i) (file_of (f_segs f') i) to (mread m sa len) /\
    forall j, j <> i -> file_of (f_segs f') j = file_of segs j.
Proof. exact download_thm. Qed.
Print Assumptions C108_write.

(** An address the mapper calls invalid is read all the same, from the memory of the process. *)
Theorem C108_invalid_refuted : forall gran segs calls de da se sa len m i g, fresh gran segs ->
  hit segs 0 da = None -> hit segs 0 sa = Some (i, g) -> g_mem g / g_page g <= se -> 1 <= len -> da + len <= sa \/ sa + len <= da ->
  exists f f' m', map_calls calls (mkFls true gran segs) = Ok f /\ memory_mapper sa se f = Ok (f, Invalid) /\
    copy_memory (de, da) (se, sa) len m f = Ok (m', f') /\
    forall x, m' x = if (da <=? x) && (x <? da + len) then m (sa + (x - da)) else m x.
Proof. exact invalid_used. Qed.
Print Assumptions C108_invalid_refuted.

(** After FlsEmu_Init as it is, every access of every command follows a null pointer. *)
Theorem C108_init_refuted : forall gran segs, segs <> [] -> Forall (fun g => g_array g = None) segs ->
  exists f, fls_init gran segs = Ok f /\ forall dst src len m, copy_memory dst src len m f = UB NullPtr.
Proof. exact copy_null. Qed.
Print Assumptions C108_init_refuted.

Example C108_case :
  fresh 16 (f_segs demo_fls) /\ hit (f_segs demo_fls) 0 0x2003 = Some (1, demo_seg 0x2000) /\ hit (f_segs demo_fls) 0 0x50000 = None /\
  match copy_memory (0, 0x50000) (2, 0x2003) 3 (fun _ => 0) demo_fls with Ok (m, _) => mread m 0x4FFFF 5 | _ => [] end = [0; 36; 37; 38; 0] /\
  match copy_memory (2, 0x2003) (0, 0x50000) 3 (fun a => a mod 256 + 7) demo_fls with Ok (_, f) => file_of (f_segs f) 1 | _ => [] end
    = map N.of_nat (seq 1 35) ++ [7; 8; 9] ++ map N.of_nat (seq 39 26) /\
  match copy_memory (0, 0x50000) (4, 0x2003) 2 (fun a => a) demo_fls with Ok (m, _) => mread m 0x50000 3 | _ => [] end = [0x2003; 0x2004; 0x50002].
Proof.
  split; [repeat constructor; exists demo_file; (split; [reflexivity|repeat split; reflexivity])|].
  repeat split; vm_compute; reflexivity.
Qed.
