(** Vocabulary for transport layers that convey commands (C132, C133). *)
From Coq Require Import NArith List Bool.
From Verif Require Import Base Config State Core Spec SpecMem Can CanBus SpecSerial SpecCan SpecStack SpecRef SpecTask Iocp.
Import ListNotations.
Open Scope N_scope.

(** Traffic on a bus that conveys the operations: commands [f] with all their parameters, maybe followed by padding;
    frames that are none of the slave's business; operations of the application (not Xcp_Init). *)
Inductive conveys {A} (c : cfg) (own : list N -> A -> Prop) (noise : A -> Prop) : list (env * busev A) -> list (env * op) -> Prop :=
| cv_nil : conveys c own noise [] []
| cv_ask : forall e f pad fr l lo, key_local e -> complete c f -> lenN (f ++ pad) <= c_max_cto c -> own (f ++ pad) fr -> conveys c own noise l lo ->
    conveys c own noise ((e, BFrame fr) :: l) ((e, ORecv f) :: lo)
| cv_noise : forall e fr l lo, noise fr -> conveys c own noise l lo -> conveys c own noise ((e, BFrame fr) :: l) lo
| cv_app : forall e o l lo, around (e, o) -> conveys c own noise l lo -> conveys c own noise ((e, BOp o) :: l) ((e, o) :: lo).

(** The frames on the bus that carry the packets of the slave. *)
Definition can_frames (outbound : bool * N) (o : list pkt) : list canframe := map (fun p => mkCan (fst outbound) false (snd outbound) (p_data p)) o.
Definition kv_frames (outbound : bool * N) (o : list pkt) : list (N * bool * list N) := map (fun p => (snd outbound, fst outbound, p_data p)) o.
(** [x] behaves like the run [r] of the slave, showing its packets as [g] says; the receive
    buffer may have another content. *)
Definition like {A B} (r : res) (x : out (A * B)) (state : A -> st) (g : list pkt -> B) : Prop :=
  match r with
  | Ok (s, o) => exists y, x = Ok (y, g o) /\ state y = set_s_in (s_in (state y)) s
  | UB w => x = UB w
  end.

(** A master [p] talks to the reference slave by way of a completion port: its commands, each in
    one completion behind a header of the right size; operations of the application; completions
    of transmissions, each of which sends the next part of an upload. *)
Inductive port_run (c : cfg) (p : N) : ref -> task -> list wevent -> list reply -> ref -> task -> Prop :=
| pr_nil : forall a t, port_run c p a t [] [] a t
| pr_ask : forall a t e q f h rs a1 t1 l rs' a2 t2, toperation c q = ORecv f -> f <> [] -> lenN f <= c_ctobuf c -> lenN h = c_offset c ->
    wf_env c e -> tencodable c q -> task_step c e a t q rs a1 t1 -> port_run c p a1 t1 l rs' a2 t2 ->
    port_run c p a t (WRecv e p (h ++ f) :: l) (rs ++ rs') a2 t2
| pr_app : forall a t e q o rs a1 t1 l rs' a2 t2, toperation c q = o -> (forall f, o <> ORecv f) ->
    wf_env c e -> tencodable c q -> task_step c e a t q rs a1 t1 -> port_run c p a1 t1 l rs' a2 t2 ->
    port_run c p a t (WOp e o :: l) (rs ++ rs') a2 t2
| pr_next : forall a n e rs a1 t1 l rs' a2 t2, wf_env c e -> task_step c e a (Sending n) (Plain QMain) rs a1 t1 -> port_run c p a1 t1 l rs' a2 t2 ->
    port_run c p a (Sending n) (WSent e :: l) (rs ++ rs') a2 t2
| pr_sent : forall a t e l rs a2 t2, (forall n, t <> Sending n) -> port_run c p a t l rs a2 t2 -> port_run c p a t (WSent e :: l) rs a2 t2.
