(** Model of the seed and key functions of the example application, examples/xcpsim/app_config.c 90-117. *)
From Coq Require Import NArith List Bool.
From Verif Require Import Base Util.
Import ListNotations.
Open Scope N_scope.

(** inc/xcp_macros.h 53-67: XCP_LOBYTE, XCP_HIBYTE, XCP_LOWORD, XCP_HIWORD. *)
Definition lobyte (w : N) : N := N.land w 0xFF mod 256.
Definition hibyte (w : N) : N := N.shiftr (N.land w 0xFF00) 8 mod 256.
Definition loword (w : N) : N := N.land w 0xFFFF mod 65536.
Definition hiword (w : N) : N := N.shiftr (N.land w 0xFFFF0000) 16 mod 65536.

(** Lines 101-105: the seed for the clock reading [ts]. *)
Definition sim_seed (ts : N) : list N :=
  [hiword (hibyte ts) mod 256; hiword (lobyte ts) mod 256; loword (hibyte ts) mod 256; loword (lobyte ts) mod 256].

(** Lines 106-109: unlock_key. *)
Definition sim_key (ts : N) : list N :=
  match sim_seed ts with
  | [s0; s1; s2; s3] =>
      let k0 := N.lxor (s0 + s3) 0xBC mod 256 in
      let k1 := N.lxor s1 k0 mod 256 in
      let k2 := N.lxor s2 k1 mod 256 in
      let k3 := N.lxor s3 k2 mod 256 in [k0; k1; k2; k3]
  | _ => []
  end.

(** Lines 114-117: Xcp_HookFunction_Unlock; [key] is what unlock_key holds, [behind] what may be read behind this array,
    [data] the receive buffer from the key on. *)
Definition sim_unlock (key behind data : list N) : out bool := mem_cmp (Some (key ++ behind)) (Some data) 4.
