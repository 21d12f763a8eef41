(** Runs for the examples of C134 - C136. *)
From Coq Require Import NArith List Bool.
From Verif Require Import Base Config State Core Spec Demo SpecMem SpecDaq Sampler SpecSampler DemoDaq CasesDaq2.
Import ListNotations.
Open Scope N_scope.

Definition smp_st : st := demo_st cfg_daq env_yes ex_run.
Definition smp_os : list (list (N * N)) := [[(0x1000, 4); (0x1020, 2)]; [(0x1030, 1)]].
(** The application changes a variable when two of its bytes were copied, and
    the master reads memory and writes the variable that is sampled last. *)
Definition smp_w : list turn :=
  repeat Go 6 ++ [Other env_yes (OAppWrite 0x1000 [0xA0; 0xA1; 0xA2; 0xA3])] ++ repeat Go 3 ++
  [Other env_yes (ORecv [0xF4; 2; 0; 0; 0; 0x10; 0; 0])] ++ repeat Go 4 ++ [Other env_yes (ORecv [0xED; 1; 0; 0; 0x30; 0x10; 0; 0; 0x77])] ++ repeat Go 30.
Definition smp_frames (w : list turn) : option (list (list N) * list (list N)) :=
  match take_all cfg_daq w (Called 1 (e_timer env_yes)) smp_st with
  | Ok (Rest, _, o) => Some (daq_frames o, map p_data (filter (fun p => negb (p_dto p)) o))
  | _ => None
  end.
Lemma smp_done : forall w a b, smp_frames w = Some (a, b) ->
  exists s' o, take_all cfg_daq w (Called 1 (e_timer env_yes)) smp_st = Ok (Rest, s', o) /\ daq_frames o = a /\ map p_data (filter (fun p => negb (p_dto p)) o) = b.
Proof.
  unfold smp_frames. intros w a b H. destruct (take_all cfg_daq w (Called 1 (e_timer env_yes)) smp_st) as [((x & s') & o)|]; [|discriminate].
  destruct x; try discriminate. injection H as <- <-. exists s', o. auto.
Qed.
