(** Vocabulary for the reference slave on a CAN bus (C126, C127) behind a completion port (C128), on an Arduino board (C129). *)
From Coq Require Import NArith List Bool.
From Verif Require Import Base Config State Core Spec SpecMem Can SpecCan Kv SpecKv CanBus Iocp Ino SpecIno SpecRef SpecStack.
Import ListNotations.
Open Scope N_scope.

(** The data of a CAN frame that carries a command with all its parameters; whatever
    follows them is padding. *)
Definition carried (c : cfg) (q : req) (d : list N) : Prop :=
  command q /\ complete c (frame c q) /\ (exists pad, d = frame c q ++ pad) /\ lenN d <= c_max_cto c.

(** The traffic on the bus: commands of the master in frames for the slave, frames
    that are none of its business, and operations of the application.  [own d f]:
    [f] is a frame for the slave with data [d]; [noise f]: it is none. *)
Inductive traffic {A} (c : cfg) (own : list N -> A -> Prop) (noise : A -> Prop) : list (env * busev A) -> list (env * req) -> Prop :=
| tr_nil : traffic c own noise [] []
| tr_ask : forall e q d f l lr, key_local e -> carried c q d -> own d f -> traffic c own noise l lr ->
    traffic c own noise ((e, BFrame f) :: l) ((e, q) :: lr)
| tr_noise : forall e f l lr, noise f -> traffic c own noise l lr -> traffic c own noise ((e, BFrame f) :: l) lr
| tr_app : forall e q l lr, ~ command q -> traffic c own noise l lr ->
    traffic c own noise ((e, BOp (operation c q)) :: l) ((e, q) :: lr).

(** SocketCAN: frames with one of the two identifiers of the slave; noise are frames with
    other standard identifiers, and empty frames. *)
Definition can_own (inbound broadcast : bool * N) (d : list N) (f : canframe) : Prop :=
  n_rtr f = false /\ n_data f = d /\ ((n_ext f, n_ident f) = inbound \/ (n_ext f, n_ident f) = broadcast).
Definition can_noise (inbound broadcast : bool * N) (f : canframe) : Prop :=
  n_data f = [] \/
  (n_rtr f = false /\ n_ext f = false /\ n_ident f < 2 ^ 11 /\ (n_ext f, n_ident f) <> inbound /\ (n_ext f, n_ident f) <> broadcast).
(** The reply [r] is on the bus. *)
Definition can_shows (c : cfg) (outbound : bool * N) (r : reply) (f : canframe) : Prop :=
  (n_ext f, n_ident f) = outbound /\ n_rtr f = false /\ reads c r (n_data f).

(** Kvaser: data frames with the identifier of the slave, of the demanded length; noise are
    data frames with others, empty ones, and those of another length. *)
Definition kv_own (c : cfg) (inbound : bool * N) (d : list N) (f : kvframe) : Prop :=
  f = data_frame (fst inbound) (snd inbound) d /\ dlc_good c d.
Definition kv_noise (c : cfg) (inbound : bool * N) (f : kvframe) : Prop :=
  exists x i d, f = data_frame x i d /\ lenN d <= c_max_cto c /\ ((x, i) <> inbound \/ d = [] \/ ~ dlc_good c d).
Definition kv_shows (c : cfg) (outbound : bool * N) (r : reply) (f : N * bool * list N) : Prop :=
  let '(i, x, d) := f in (x, i) = outbound /\ reads c r d.

(** A completion port (C128): commands of the master [p], each in one completion behind a
    header of the right size; operations of the application; completions of transmissions. *)
Inductive completes (c : cfg) (p : N) : list wevent -> list (env * req) -> Prop :=
| cp_nil : completes c p [] []
| cp_ask : forall e q h l lr, command q -> frame c q <> [] -> lenN (frame c q) <= c_ctobuf c -> lenN h = c_offset c -> completes c p l lr ->
    completes c p (WRecv e p (h ++ frame c q) :: l) ((e, q) :: lr)
| cp_sent : forall e l lr, completes c p l lr -> completes c p (WSent e :: l) lr
| cp_app : forall e q l lr, ~ command q -> completes c p l lr -> completes c p (WOp e (operation c q) :: l) ((e, q) :: lr).
(** The master is the first to be heard of. *)
Definition comes (p : N) (l : list wevent) : Prop := match l with WRecv _ q _ :: _ => q = p | _ => False end.

(** Arduino (C129): any data frame is one for the slave (C93). *)
Definition ino_own (d : list N) (f : canframe) : Prop := n_rtr f = false /\ n_data f = d.
Definition on_bus (w : env * work) : env * busev canframe := (fst w, match snd w with WFrame f _ => BFrame f | WCall o => BOp o end).
