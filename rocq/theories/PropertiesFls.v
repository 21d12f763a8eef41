(** C61, C62 and C70: the flash emulation. *)
From Coq Require Import NArith List Bool Lia.
From Verif Require Import Base Flsemu SpecFls ProofsFls.
Import ListNotations.
Open Scope N_scope.

(** ** C61 Erasing *)

(** EraseBlock sets exactly the block to 0xFF, ... *)
Theorem C61_block : forall f i g file b, open_at f i g file 0 -> lenN file = g_mem g -> g_mem g < 2 ^ 32 -> b < g_blocks g ->
  let size := g_mem g / g_blocks g in
  exists f' g' file', erase_block i b f = Ok f' /\ open_at f' i g' file' 0 /\ erased file file' (size * b) size /\ lenN file' = lenN file /\ others_kept f f' i.
Proof. exact erase_block_thm. Qed.
Print Assumptions C61_block.

(** ... and ErasePage the page, as long as no page has been selected. *)
Theorem C61_page : forall f i g file q gran, open_at f i g file 0 -> sound gran g file -> q < g_mem g / g_page g ->
  exists f' g' file', erase_page i q f = Ok f' /\ open_at f' i g' file' 0 /\ erased file file' (g_page g * q) (g_page g) /\ lenN file' = lenN file /\ others_kept f f' i.
Proof. exact erase_page_thm. Qed.
Print Assumptions C61_page.

(** Afterwards it erases another page. *)
Theorem C61_page_refuted : forall f i g file gran p q, open_at f i g file 0 -> g_array g = Some (open_array file) -> f_gran f = gran -> sound gran g file ->
  1 <= p -> p + q < g_mem g / g_page g ->
  exists f1 f2 g2 file2, select_page i p f = Ok f1 /\ erase_page i q f1 = Ok f2 /\ open_at f2 i g2 file2 (g_page g * p) /\
    erased file file2 (g_page g * (p + q)) (g_page g).
Proof. exact erase_selected. Qed.
Print Assumptions C61_page_refuted.

(** EraseSector erases the sector at twice the address, if there is one: ... *)
Theorem C61_sector : forall f i g file off k addr, open_at f i g file off -> k <= 15 -> g_sector g = 2 ^ k ->
  let start := 2 ^ k * (addr / 2 ^ k) in
  if (2 * start + 2 ^ k <=? g_mem g) && (off + 2 * start + 2 ^ k <=? lenN file) then
    exists f' g' file', erase_sector i addr f = Ok f' /\ open_at f' i g' file' off /\ erased file file' (off + 2 * start) (2 ^ k) /\ others_kept f f' i
  else erase_sector i addr f = UB OobBuffer.
Proof. exact erase_sector_thm. Qed.
Print Assumptions C61_sector.

(** ... except for the first sector, the addressed sector keeps its contents. *)
Theorem C61_sector_refuted : forall f i g file k addr, open_at f i g file 0 -> k <= 15 -> g_sector g = 2 ^ k -> 2 ^ k <= addr ->
  erase_sector i addr f = UB OobBuffer \/
  exists f' g' file', erase_sector i addr f = Ok f' /\ open_at f' i g' file' 0 /\
    forall x, x / 2 ^ k = addr / 2 ^ k -> getN file' x = getN file x.
Proof. exact sector_wrong. Qed.
Print Assumptions C61_sector_refuted.

Example C61_case :
  open_at demo_fls 1 (demo_seg 0x2000) demo_file 0 /\ sound 16 (demo_seg 0x2000) demo_file /\
  contents (erase_block 1 1 demo_fls) 1 = Some (map N.of_nat (seq 1 32) ++ repeat 0xFF 32) /\
  contents (erase_page 1 2 demo_fls) 1 = Some (map N.of_nat (seq 1 32) ++ repeat 0xFF 16 ++ map N.of_nat (seq 49 16)) /\
  contents (erase_sector 1 9 demo_fls) 1 = Some (map N.of_nat (seq 1 16) ++ repeat 0xFF 8 ++ map N.of_nat (seq 25 40)) /\
  contents (f1 <- select_page 1 1 demo_fls ;; erase_page 1 0 f1) 1 = Some (map N.of_nat (seq 1 16) ++ repeat 0xFF 16 ++ map N.of_nat (seq 33 32)) /\
  erase_sector 1 40 demo_fls = UB OobBuffer.
Proof.
  split; [repeat split; exists 0; reflexivity|]. split; [repeat split; reflexivity|].
  repeat split; vm_compute; reflexivity.
Qed.

(** ** C62 Mapping *)

(** After any calls, the mapper finds the first segment whose window contains the address,
    rejects pages that do not exist, and points to the right byte of the page
    demanded; for page 0, however, of the page demanded last. *)
Theorem C62_mapping : forall gran segs calls addr ext, fresh gran segs ->
  exists f f' r, map_calls calls (mkFls true gran segs) = Ok f /\ memory_mapper addr ext f = Ok (f', r) /\
    match hit segs 0 addr with
    | None => r = NotMapped
    | Some (i, g) =>
        if ext <? g_mem g / g_page g then
          r = MappedTo i (addr - g_base g) /\
          forall o, byte_at f' i o = getN (file_of segs i) (g_page g * (if ext =? 0 then last_page segs i 0 calls else ext) + o)
        else r = Invalid
    end.
Proof. exact mapping_thm. Qed.
Print Assumptions C62_mapping.

(** Once another page has been demanded, page 0 is out of reach. *)
Theorem C62_refuted : forall gran segs calls a1 p a2 i g, fresh gran segs -> hit segs 0 a1 = Some (i, g) -> hit segs 0 a2 = Some (i, g) ->
  1 <= p -> p < g_mem g / g_page g ->
  exists f f', map_calls (calls ++ [(a1, p)]) (mkFls true gran segs) = Ok f /\ memory_mapper a2 0 f = Ok (f', MappedTo i (a2 - g_base g)) /\
    forall o, byte_at f' i o = getN (file_of segs i) (g_page g * p + o).
Proof. exact page0_lost. Qed.
Print Assumptions C62_refuted.

Example C62_case :
  fresh 16 (f_segs demo_fls) /\ hit (f_segs demo_fls) 0 0x2003 = Some (1, demo_seg 0x2000) /\ hit (f_segs demo_fls) 0 0x2010 = None /\
  match memory_mapper 0x2003 0 demo_fls with Ok (f, MappedTo i o) => byte_at f i o | _ => None end = Some 4 /\
  match memory_mapper 0x2003 2 demo_fls with
  | Ok (f, MappedTo i o) => (byte_at f i o, match memory_mapper 0x2003 0 f with Ok (f1, MappedTo i1 o1) => byte_at f1 i1 o1 | _ => None end)
  | _ => (None, None)
  end = (Some 36, Some 36).
Proof.
  split; [|vm_compute; repeat split; reflexivity].
  repeat constructor; exists demo_file; (split; [reflexivity|repeat split; reflexivity]).
Qed.

(** ** C70 Initialisation *)

(** FlsEmu_Init opens no segment: every use of one follows a null pointer. *)
Theorem C70_refuted : forall gran segs, Forall (fun g => g_array g = None) segs ->
  exists f, fls_init gran segs = Ok f /\
    (forall i g addr, getN segs i = Some g -> erase_sector i addr f = UB NullPtr) /\
    (forall i g page, getN segs i = Some g -> erase_page i page f = UB NullPtr /\ select_page i page f = UB NullPtr) /\
    (forall i g block, getN segs i = Some g -> block < g_blocks g -> erase_block i block f = UB NullPtr) /\
    (forall addr ext, segs <> [] -> memory_mapper addr ext f = UB NullPtr).
Proof. exact init_unusable. Qed.
Print Assumptions C70_refuted.

(** The configuration of the example application (examples/xcpsim/app_config.c). *)
Example C70_case :
  let segs := [mkSeg (512 * 1024) 256 0x4000 4 0x8000 None 0; mkSeg 4096 4 4096 1 0x4000 None 0] in
  Forall (fun g => g_array g = None) segs /\ fls_init 4096 segs = Ok (mkFls true 4096 segs) /\
  erase_block 1 0 (mkFls true 4096 segs) = UB NullPtr /\ memory_mapper 0x8010 0 (mkFls true 4096 segs) = UB NullPtr.
Proof. cbv zeta. split; [repeat constructor|]. repeat split; vm_compute; reflexivity. Qed.
