(** Seed and key of the example application: C76. *)
From Coq Require Import NArith List Bool Lia.
From Verif Require Import Base Util Xcpsim ProofsXcpsim.
Import ListNotations.
Open Scope N_scope.

(** Exactly the key of the last seed unlocks, if there is something readable behind the key. *)
Theorem C76_key : forall ts behind data, behind <> [] -> 4 < lenN data ->
  exists v, sim_unlock (sim_key ts) behind data = Ok v /\ (v = true <-> takeN 4 data = sim_key ts).
Proof. exact unlock_exact. Qed.
Print Assumptions C76_key.

(** The array ends there: the right key, and only this one, leads to an access outside of it. *)
Theorem C76_overread_refuted : forall ts rest, sim_unlock (sim_key ts) [] (sim_key ts ++ rest) = UB OobBuffer.
Proof. exact unlock_over. Qed.
Print Assumptions C76_overread_refuted.

(** Keys belong to their seeds one to one. *)
Theorem C76_pairs : forall a b, sim_key a = sim_key b <-> sim_seed a = sim_seed b.
Proof. exact (fun a b => conj (key_inj a b) (key_of_seed a b)). Qed.
Print Assumptions C76_pairs.

(** Every key is a function of the two low bytes of the clock. *)
Theorem C76_algorithm : forall ts, let a := ts mod 256 in let b := ts / 256 mod 256 in let k := N.lxor a 0xBC in
  sim_key ts = [k; k; N.lxor k b; N.lxor (N.lxor k b) a].
Proof. exact key_closed. Qed.
Print Assumptions C76_algorithm.

(** The seeds repeat every 65536 ticks of the 32 bit clock, their first two bytes are always zero. *)
Theorem C76_seeds_refuted : forall a b, sim_seed a = sim_seed b <-> a mod 65536 = b mod 65536.
Proof. exact seed_period. Qed.
Print Assumptions C76_seeds_refuted.

Example C76_case :
  sim_seed 0x12345678 = [0; 0; 0x56; 0x78] /\ sim_key 0x12345678 = [0xC4; 0xC4; 0x92; 0xEA] /\ sim_key 0xABCD5678 = sim_key 0x12345678 /\
  sim_unlock (sim_key 0x12345678) [7] [0xC4; 0xC4; 0x92; 0xEA; 0] = Ok true /\
  sim_unlock (sim_key 0x12345678) [7] [0xC4; 0xC4; 0x92; 0xEB; 0] = Ok false.
Proof. vm_compute. repeat split. Qed.
