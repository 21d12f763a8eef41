(** Checksum calculation, src/xcp_checksum.c 55-326. *)
From Coq Require Import NArith List Bool.
From Verif Require Import Base Config.
Import ListNotations.
Open Scope N_scope.

(** src/xcp_checksum.c 78-116: table of CRC-16. *)
Definition crc16_tab : list N := [
  0x0000; 0x8005; 0x800f; 0x000a; 0x801b; 0x001e; 0x0014; 0x8011;
  0x8033; 0x0036; 0x003c; 0x8039; 0x0028; 0x802d; 0x8027; 0x0022;
  0x8063; 0x0066; 0x006c; 0x8069; 0x0078; 0x807d; 0x8077; 0x0072;
  0x0050; 0x8055; 0x805f; 0x005a; 0x804b; 0x004e; 0x0044; 0x8041;
  0x80c3; 0x00c6; 0x00cc; 0x80c9; 0x00d8; 0x80dd; 0x80d7; 0x00d2;
  0x00f0; 0x80f5; 0x80ff; 0x00fa; 0x80eb; 0x00ee; 0x00e4; 0x80e1;
  0x00a0; 0x80a5; 0x80af; 0x00aa; 0x80bb; 0x00be; 0x00b4; 0x80b1;
  0x8093; 0x0096; 0x009c; 0x8099; 0x0088; 0x808d; 0x8087; 0x0082;
  0x8183; 0x0186; 0x018c; 0x8189; 0x0198; 0x819d; 0x8197; 0x0192;
  0x01b0; 0x81b5; 0x81bf; 0x01ba; 0x81ab; 0x01ae; 0x01a4; 0x81a1;
  0x01e0; 0x81e5; 0x81ef; 0x01ea; 0x81fb; 0x01fe; 0x01f4; 0x81f1;
  0x81d3; 0x01d6; 0x01dc; 0x81d9; 0x01c8; 0x81cd; 0x81c7; 0x01c2;
  0x0140; 0x8145; 0x814f; 0x014a; 0x815b; 0x015e; 0x0154; 0x8151;
  0x8173; 0x0176; 0x017c; 0x8179; 0x0168; 0x816d; 0x8167; 0x0162;
  0x8123; 0x0126; 0x012c; 0x8129; 0x0138; 0x813d; 0x8137; 0x0132;
  0x0110; 0x8115; 0x811f; 0x011a; 0x810b; 0x010e; 0x0104; 0x8101;
  0x8303; 0x0306; 0x030c; 0x8309; 0x0318; 0x831d; 0x8317; 0x0312;
  0x0330; 0x8335; 0x833f; 0x033a; 0x832b; 0x032e; 0x0324; 0x8321;
  0x0360; 0x8365; 0x836f; 0x036a; 0x837b; 0x037e; 0x0374; 0x8371;
  0x8353; 0x0356; 0x035c; 0x8359; 0x0348; 0x834d; 0x8347; 0x0342;
  0x03c0; 0x83c5; 0x83cf; 0x03ca; 0x83db; 0x03de; 0x03d4; 0x83d1;
  0x83f3; 0x03f6; 0x03fc; 0x83f9; 0x03e8; 0x83ed; 0x83e7; 0x03e2;
  0x83a3; 0x03a6; 0x03ac; 0x83a9; 0x03b8; 0x83bd; 0x83b7; 0x03b2;
  0x0390; 0x8395; 0x839f; 0x039a; 0x838b; 0x038e; 0x0384; 0x8381;
  0x0280; 0x8285; 0x828f; 0x028a; 0x829b; 0x029e; 0x0294; 0x8291;
  0x82b3; 0x02b6; 0x02bc; 0x82b9; 0x02a8; 0x82ad; 0x82a7; 0x02a2;
  0x82e3; 0x02e6; 0x02ec; 0x82e9; 0x02f8; 0x82fd; 0x82f7; 0x02f2;
  0x02d0; 0x82d5; 0x82df; 0x02da; 0x82cb; 0x02ce; 0x02c4; 0x82c1;
  0x8243; 0x0246; 0x024c; 0x8249; 0x0258; 0x825d; 0x8257; 0x0252;
  0x0270; 0x8275; 0x827f; 0x027a; 0x826b; 0x026e; 0x0264; 0x8261;
  0x0220; 0x8225; 0x822f; 0x022a; 0x823b; 0x023e; 0x0234; 0x8231;
  0x8213; 0x0216; 0x021c; 0x8219; 0x0208; 0x820d; 0x8207; 0x0202].

(** src/xcp_checksum.c 128-166: table of CRC-CCITT. *)
Definition citt_tab : list N := [
  0x0000; 0x1021; 0x2042; 0x3063; 0x4084; 0x50a5; 0x60c6; 0x70e7;
  0x8108; 0x9129; 0xa14a; 0xb16b; 0xc18c; 0xd1ad; 0xe1ce; 0xf1ef;
  0x1231; 0x0210; 0x3273; 0x2252; 0x52b5; 0x4294; 0x72f7; 0x62d6;
  0x9339; 0x8318; 0xb37b; 0xa35a; 0xd3bd; 0xc39c; 0xf3ff; 0xe3de;
  0x2462; 0x3443; 0x0420; 0x1401; 0x64e6; 0x74c7; 0x44a4; 0x5485;
  0xa56a; 0xb54b; 0x8528; 0x9509; 0xe5ee; 0xf5cf; 0xc5ac; 0xd58d;
  0x3653; 0x2672; 0x1611; 0x0630; 0x76d7; 0x66f6; 0x5695; 0x46b4;
  0xb75b; 0xa77a; 0x9719; 0x8738; 0xf7df; 0xe7fe; 0xd79d; 0xc7bc;
  0x48c4; 0x58e5; 0x6886; 0x78a7; 0x0840; 0x1861; 0x2802; 0x3823;
  0xc9cc; 0xd9ed; 0xe98e; 0xf9af; 0x8948; 0x9969; 0xa90a; 0xb92b;
  0x5af5; 0x4ad4; 0x7ab7; 0x6a96; 0x1a71; 0x0a50; 0x3a33; 0x2a12;
  0xdbfd; 0xcbdc; 0xfbbf; 0xeb9e; 0x9b79; 0x8b58; 0xbb3b; 0xab1a;
  0x6ca6; 0x7c87; 0x4ce4; 0x5cc5; 0x2c22; 0x3c03; 0x0c60; 0x1c41;
  0xedae; 0xfd8f; 0xcdec; 0xddcd; 0xad2a; 0xbd0b; 0x8d68; 0x9d49;
  0x7e97; 0x6eb6; 0x5ed5; 0x4ef4; 0x3e13; 0x2e32; 0x1e51; 0x0e70;
  0xff9f; 0xefbe; 0xdfdd; 0xcffc; 0xbf1b; 0xaf3a; 0x9f59; 0x8f78;
  0x9188; 0x81a9; 0xb1ca; 0xa1eb; 0xd10c; 0xc12d; 0xf14e; 0xe16f;
  0x1080; 0x00a1; 0x30c2; 0x20e3; 0x5004; 0x4025; 0x7046; 0x6067;
  0x83b9; 0x9398; 0xa3fb; 0xb3da; 0xc33d; 0xd31c; 0xe37f; 0xf35e;
  0x02b1; 0x1290; 0x22f3; 0x32d2; 0x4235; 0x5214; 0x6277; 0x7256;
  0xb5ea; 0xa5cb; 0x95a8; 0x8589; 0xf56e; 0xe54f; 0xd52c; 0xc50d;
  0x34e2; 0x24c3; 0x14a0; 0x0481; 0x7466; 0x6447; 0x5424; 0x4405;
  0xa7db; 0xb7fa; 0x8799; 0x97b8; 0xe75f; 0xf77e; 0xc71d; 0xd73c;
  0x26d3; 0x36f2; 0x0691; 0x16b0; 0x6657; 0x7676; 0x4615; 0x5634;
  0xd94c; 0xc96d; 0xf90e; 0xe92f; 0x99c8; 0x89e9; 0xb98a; 0xa9ab;
  0x5844; 0x4865; 0x7806; 0x6827; 0x18c0; 0x08e1; 0x3882; 0x28a3;
  0xcb7d; 0xdb5c; 0xeb3f; 0xfb1e; 0x8bf9; 0x9bd8; 0xabbb; 0xbb9a;
  0x4a75; 0x5a54; 0x6a37; 0x7a16; 0x0af1; 0x1ad0; 0x2ab3; 0x3a92;
  0xfd2e; 0xed0f; 0xdd6c; 0xcd4d; 0xbdaa; 0xad8b; 0x9de8; 0x8dc9;
  0x7c26; 0x6c07; 0x5c64; 0x4c45; 0x3ca2; 0x2c83; 0x1ce0; 0x0cc1;
  0xef1f; 0xff3e; 0xcf5d; 0xdf7c; 0xaf9b; 0xbfba; 0x8fd9; 0x9ff8;
  0x6e17; 0x7e36; 0x4e55; 0x5e74; 0x2e93; 0x3eb2; 0x0ed1; 0x1ef0].

(** src/xcp_checksum.c 178-231: table of CRC-32. *)
Definition crc32_tab : list N := [
  0x00000000; 0x77073096; 0xee0e612c; 0x990951ba; 0x076dc419; 0x706af48f; 0xe963a535; 0x9e6495a3;
  0x0edb8832; 0x79dcb8a4; 0xe0d5e91e; 0x97d2d988; 0x09b64c2b; 0x7eb17cbd; 0xe7b82d07; 0x90bf1d91;
  0x1db71064; 0x6ab020f2; 0xf3b97148; 0x84be41de; 0x1adad47d; 0x6ddde4eb; 0xf4d4b551; 0x83d385c7;
  0x136c9856; 0x646ba8c0; 0xfd62f97a; 0x8a65c9ec; 0x14015c4f; 0x63066cd9; 0xfa0f3d63; 0x8d080df5;
  0x3b6e20c8; 0x4c69105e; 0xd56041e4; 0xa2677172; 0x3c03e4d1; 0x4b04d447; 0xd20d85fd; 0xa50ab56b;
  0x35b5a8fa; 0x42b2986c; 0xdbbbc9d6; 0xacbcf940; 0x32d86ce3; 0x45df5c75; 0xdcd60dcf; 0xabd13d59;
  0x26d930ac; 0x51de003a; 0xc8d75180; 0xbfd06116; 0x21b4f4b5; 0x56b3c423; 0xcfba9599; 0xb8bda50f;
  0x2802b89e; 0x5f058808; 0xc60cd9b2; 0xb10be924; 0x2f6f7c87; 0x58684c11; 0xc1611dab; 0xb6662d3d;
  0x76dc4190; 0x01db7106; 0x98d220bc; 0xefd5102a; 0x71b18589; 0x06b6b51f; 0x9fbfe4a5; 0xe8b8d433;
  0x7807c9a2; 0x0f00f934; 0x9609a88e; 0xe10e9818; 0x7f6a0dbb; 0x086d3d2d; 0x91646c97; 0xe6635c01;
  0x6b6b51f4; 0x1c6c6162; 0x856530d8; 0xf262004e; 0x6c0695ed; 0x1b01a57b; 0x8208f4c1; 0xf50fc457;
  0x65b0d9c6; 0x12b7e950; 0x8bbeb8ea; 0xfcb9887c; 0x62dd1ddf; 0x15da2d49; 0x8cd37cf3; 0xfbd44c65;
  0x4db26158; 0x3ab551ce; 0xa3bc0074; 0xd4bb30e2; 0x4adfa541; 0x3dd895d7; 0xa4d1c46d; 0xd3d6f4fb;
  0x4369e96a; 0x346ed9fc; 0xad678846; 0xda60b8d0; 0x44042d73; 0x33031de5; 0xaa0a4c5f; 0xdd0d7cc9;
  0x5005713c; 0x270241aa; 0xbe0b1010; 0xc90c2086; 0x5768b525; 0x206f85b3; 0xb966d409; 0xce61e49f;
  0x5edef90e; 0x29d9c998; 0xb0d09822; 0xc7d7a8b4; 0x59b33d17; 0x2eb40d81; 0xb7bd5c3b; 0xc0ba6cad;
  0xedb88320; 0x9abfb3b6; 0x03b6e20c; 0x74b1d29a; 0xead54739; 0x9dd277af; 0x04db2615; 0x73dc1683;
  0xe3630b12; 0x94643b84; 0x0d6d6a3e; 0x7a6a5aa8; 0xe40ecf0b; 0x9309ff9d; 0x0a00ae27; 0x7d079eb1;
  0xf00f9344; 0x8708a3d2; 0x1e01f268; 0x6906c2fe; 0xf762575d; 0x806567cb; 0x196c3671; 0x6e6b06e7;
  0xfed41b76; 0x89d32be0; 0x10da7a5a; 0x67dd4acc; 0xf9b9df6f; 0x8ebeeff9; 0x17b7be43; 0x60b08ed5;
  0xd6d6a3e8; 0xa1d1937e; 0x38d8c2c4; 0x4fdff252; 0xd1bb67f1; 0xa6bc5767; 0x3fb506dd; 0x48b2364b;
  0xd80d2bda; 0xaf0a1b4c; 0x36034af6; 0x41047a60; 0xdf60efc3; 0xa867df55; 0x316e8eef; 0x4669be79;
  0xcb61b38c; 0xbc66831a; 0x256fd2a0; 0x5268e236; 0xcc0c7795; 0xbb0b4703; 0x220216b9; 0x5505262f;
  0xc5ba3bbe; 0xb2bd0b28; 0x2bb45a92; 0x5cb36a04; 0xc2d7ffa7; 0xb5d0cf31; 0x2cd99e8b; 0x5bdeae1d;
  0x9b64c2b0; 0xec63f226; 0x756aa39c; 0x026d930a; 0x9c0906a9; 0xeb0e363f; 0x72076785; 0x05005713;
  0x95bf4a82; 0xe2b87a14; 0x7bb12bae; 0x0cb61b38; 0x92d28e9b; 0xe5d5be0d; 0x7cdcefb7; 0x0bdbdf21;
  0x86d3d2d4; 0xf1d4e242; 0x68ddb3f8; 0x1fda836e; 0x81be16cd; 0xf6b9265b; 0x6fb077e1; 0x18b74777;
  0x88085ae6; 0xff0f6a70; 0x66063bca; 0x11010b5c; 0x8f659eff; 0xf862ae69; 0x616bffd3; 0x166ccf45;
  0xa00ae278; 0xd70dd2ee; 0x4e048354; 0x3903b3c2; 0xa7672661; 0xd06016f7; 0x4969474d; 0x3e6e77db;
  0xaed16a4a; 0xd9d65adc; 0x40df0b66; 0x37d83bf0; 0xa9bcae53; 0xdebb9ec5; 0x47b2cf7f; 0x30b5ffe9;
  0xbdbdf21c; 0xcabac28a; 0x53b39330; 0x24b4a3a6; 0xbad03605; 0xcdd70693; 0x54de5729; 0x23d967bf;
  0xb3667a2e; 0xc4614ab8; 0x5d681b02; 0x2a6f2b94; 0xb40bbe37; 0xc30c8ea1; 0x5a05df1b; 0x2d02ef8d].

(** src/xcp_checksum.c 250-267: reflect; bit i of the result is bit (n-1-i) of
    the argument.  Simplification: (1 << 31), formally a signed overflow reached
    only with CRC-32, has its usual two's complement value. *)
Fixpoint reflect_loop (k : nat) (n bit data acc : N) : N :=
  match k with
  | O => acc
  | S j => reflect_loop j n (bit + 1) (data / 2)
             (if N.odd data then N.lor acc (2 ^ (n - 1 - bit)) else acc)
  end.
Definition reflect (data n : N) : N := reflect_loop (N.to_nat n) n 0 data 0.

(** The per-method macros, src/xcp_checksum.c 70-76, 119-126, 169-176, and the
    width of Xcp_ChecksumType, inc/xcp.h 1229-1240. *)
Definition ck_width (m : cksum) : N :=
  match m with
  | ADD11 => 8 | ADD12 | ADD22 | CRC16 | CRC16CITT => 16
  | ADD14 | ADD24 | ADD44 | CRC32 => 32
  end.
Definition crc_init (m : cksum) : N :=
  match m with CRC16CITT => 0xFFFF | CRC32 => 0xFFFFFFFF | _ => 0 end.
Definition crc_xor (m : cksum) : N := match m with CRC32 => 0xFFFFFFFF | _ => 0 end.
Definition crc_refl (m : cksum) : bool := match m with CRC16CITT => false | _ => true end.
Definition crc_tab (m : cksum) : list N :=
  match m with CRC16 => crc16_tab | CRC16CITT => citt_tab | _ => crc32_tab end.

(** src/xcp_checksum.c 283-286: one iteration of the CRC loop; note UINT16 around
    the shifted remainder for every width. *)
Definition crc_byte (m : cksum) (r b : N) : N :=
  let d := N.lxor (if crc_refl m then u8 (reflect b 8) else b) (u8 (N.shiftr r (ck_width m - 8))) in
  N.lxor (nth (N.to_nat d) (crc_tab m) 0) (u16 (N.shiftl r 8)).

(** src/xcp_checksum.c 287: value returned for remainder [r]. *)
Definition crc_final (m : cksum) (r : N) : N :=
  N.lxor (if crc_refl m then reflect r (ck_width m) else r) (crc_xor m).

(** src/xcp_checksum.c 297-301: byte sums. *)
Fixpoint add_bytes (w acc : N) (bs : list N) : N :=
  match bs with [] => acc | b :: t => add_bytes w ((acc + b) mod 2 ^ w) t end.

(** src/xcp_checksum.c 303-325: sums over 16- or 32-bit words in the byte order
    of the target; a trailing incomplete word is dropped (length >>= 1 or 2).
    Simplification: alignment of the block is not modelled. *)
Definition word_val (be : bool) (bs : list N) : N := if be then be_value bs else le_value bs.
Fixpoint add_words (be : bool) (k : nat) (w acc : N) (bs : list N) (n : nat) : N :=
  match n with
  | O => acc
  | S j => add_words be k w ((acc + word_val be (firstn k bs)) mod 2 ^ w) (skipn k bs) j
  end.

Definition is_crc (m : cksum) : bool :=
  match m with CRC16 | CRC16CITT | CRC32 => true | _ => false end.
Definition add_step (m : cksum) : nat := match m with ADD22 | ADD24 => 2 | ADD44 => 4 | _ => 1 end%nat.

(** src/xcp_checksum.c 270-326: Xcp_CalculateChecksum over the bytes [bs]. *)
Definition calc (m : cksum) (be : bool) (bs : list N) (start : N) (first : bool) : N :=
  if is_crc m then
    crc_final m (fold_left (crc_byte m) bs (if first then crc_init m else start))
  else
    let acc := if first then 0 else start in
    match m with
    | ADD22 | ADD24 | ADD44 =>
        add_words be (add_step m) (ck_width m) acc bs (Nat.div (length bs) (add_step m))
    | _ => add_bytes (ck_width m) acc bs
    end.
