(** C165: the addresses of UDP peers on Linux. *)
From Coq Require Import NArith List Bool Lia.
From Verif Require Import Base Config State Core Demo Net Addr SpecAddr CasesTcp ProofsAddr.
Import ListNotations.
Open Scope N_scope.

(** ** C165 With UDP, frames are sent to the address of the master *)

(** For IPv4 and pointers of eight bytes: every history of frames and operations, whatever is next to the length on the stack (as long as the calls succeed).
    The frames for peer number i (Net.v) go to its address. *)
Theorem C165_v4 : forall c A H l n, (forall i, is_v4 (A i)) -> (forall k, fst (H k) < 0x8000 /\ snd (H k) < 0x8000) -> Forall known l -> t_cur n = 0 -> t_conn n = 0 ->
  posted (addr_run c 8 A H 0 l (n, no_addr, no_addr)) = ('(n1, o) <- net_run c true l n ;; Ok (n1, map (to A) o)).
Proof. exact v4_thm. Qed.
Print Assumptions C165_v4.

(** For IPv6 the same if the bytes next to the length happen not to be zero ... *)
Theorem C165_v6_chance : forall c ptr A H l n, (forall i, is_v6 (A i)) -> (forall k, 1 <= fst (H k) < 0x8000 /\ 1 <= snd (H k) < 0x8000) -> Forall known l -> t_cur n = 0 -> t_conn n = 0 ->
  posted (addr_run c ptr A H 0 l (n, no_addr, no_addr)) = ('(n1, o) <- net_run c true l n ;; Ok (n1, map (to A) o)).
Proof. exact v6_thm. Qed.
Print Assumptions C165_v6_chance.

(** ... but if they are zero, refuted: every frame goes to the address :: (the machine of the slave itself) and the port of the peer ... *)
Theorem C165_v6_refuted : forall c A H l n, (forall i, is_v6 (A i)) -> (forall k, H k = (0, 0)) -> Forall known l -> t_cur n = 0 -> t_conn n = 0 ->
  posted (addr_run c 8 A H 0 l (n, no_addr, no_addr)) = ('(n1, o) <- net_run c true l n ;; Ok (n1, map (to (fun i => nowhere_flow (A i))) o)).
Proof. exact v6_wrong. Qed.
Print Assumptions C165_v6_refuted.

(** ... so that no peer with another address ever gets an answer. *)
Theorem C165_nobody_refuted : forall c ptr A H l n n1 a b o, ptr = 4 \/ ptr = 8 -> (forall i, is_v6 (A i)) -> (forall k, H k = (0, 0)) -> Forall known l -> t_cur n = 0 -> t_conn n = 0 ->
  addr_run c ptr A H 0 l (n, no_addr, no_addr) = Ok (n1, a, b, o) -> forall q y i, In (Some q, y) o -> somewhere (A i) -> q <> A i.
Proof. exact nobody_thm. Qed.
Print Assumptions C165_nobody_refuted.

(** With pointers of four bytes the same for IPv4. *)
Theorem C165_four_refuted : forall c A H l n, (forall i, is_v4 (A i) \/ is_v6 (A i)) -> (forall k, H k = (0, 0)) -> Forall known l -> t_cur n = 0 -> t_conn n = 0 ->
  posted (addr_run c 4 A H 0 l (n, no_addr, no_addr)) = ('(n1, o) <- net_run c true l n ;; Ok (n1, map (to (fun i => nowhere (A i))) o)).
Proof. exact four_wrong. Qed.
Print Assumptions C165_four_refuted.

(** Peer 1 connects, peer 2 asks for the status and is answered in place of peer 1, then connects itself. *)
Example C165_case :
  let A4 i := V4 [0x15; i] [192; 168; 0; i] in
  let A6 i := V6 [0x15; i] [0; 0; 0; 0] ([0x20; 1; 0xd; 0xb8] ++ repeat 0 11 ++ [i]) [0; 0; 0; 0] in
  let l := [EFrame env_yes 1 [0xFF; 0]; EFrame env_yes 2 [0xFD]; EFrame env_yes 2 [0xFF; 0]] in
  let hosts ptr A h := match addr_run cfg_eth ptr A (fun _ => (h, h)) 0 l (net0, no_addr, no_addr) with
                       | Ok (_, _, _, o) => map (fun y => match fst y with Some p => host p | None => [] end) o | UB _ => [] end in
  Forall known l /\ t_cur net0 = 0 /\ t_conn net0 = 0 /\ is_v4 (A4 1) /\ is_v6 (A6 1) /\ somewhere (A6 1) /\
  hosts 8 A4 0 = [[192; 168; 0; 1]; [192; 168; 0; 1]; [192; 168; 0; 2]] /\ hosts 8 A4 77 = hosts 8 A4 0 /\
  hosts 8 A6 0 = repeat (repeat 0 16) 3 /\ hosts 8 A6 77 = map (fun i => [0x20; 1; 0xd; 0xb8] ++ repeat 0 11 ++ [i]) [1; 1; 2] /\
  hosts 4 A4 0 = repeat (repeat 0 4) 3.
Proof.
  cbv zeta. split; [repeat constructor; cbn; discriminate|]. split; [reflexivity|]. split; [reflexivity|].
  split; [do 2 eexists; repeat split|]. split; [do 4 eexists; repeat split|]. split; [left; discriminate|].
  split; [vm_compute; reflexivity|]. split; [vm_compute; reflexivity|]. split; [vm_compute; reflexivity|]. split; [vm_compute; reflexivity|]. vm_compute. reflexivity.
Qed.
