(** Vocabulary of the properties of predefined DAQ lists. *)
From Coq Require Import NArith List Bool.
From Verif Require Import Base Config Codec State Core Spec SpecMem SpecDaq Predef.
Import ListNotations.
Open Scope N_scope.

(** The build has DAQ commands but none to allocate lists. *)
Definition static (c : cfg) : Prop := c_daq c = true /\ Forall (fun k => c_opt c k = false) [0xD6; 0xD5; 0xD4; 0xD3].

(** The tables hold values of their C types (inc/xcp.h 560-562, 830-860). *)
Record wf_pre (c : cfg) (p : predef) (es : list (N * N)) : Prop := {
  wp_count : count_of p < we c;
  wp_lists : Forall (fun x => fst x < we c /\ snd x < 2 ^ 16) (pr_lists p);
  wp_odts : Forall (fun x => fst x < we c /\ snd x < 2 ^ 16) (pr_odts p);
  wp_entries : Forall (fun x => fst x < 2 ^ 32 /\ snd x < 2 ^ 32) es
}.

(** [z] is reached, after the operations [l] and having sent [o], from power-on
    with the tables [p], [es]. *)
Definition sreachable (c : cfg) (p : predef) (es : list (N * N)) (m : mem) (l : list (env * op)) (z : sst) (o : list pkt) : Prop :=
  wf_cfg c /\ static c /\ wf_pre c p es /\ wf_mem m /\ wf_run c l /\
  exists z0, sboot c p es m = Ok z0 /\ srun c p l z0 = Ok (z, o).

(** The tables describe the lists [t]; every index needed is a value of the entity
    type. *)
Definition describes (c : cfg) (p : predef) (es : list (N * N)) (t : tree) : Prop :=
  lenN (pr_lists p) = lenN t /\ lenN (concat t) < we c /\
  forall l os, getN t l = Some os -> exists f, getN (pr_lists p) l = Some (lenN os, f) /\
    forall o xs, getN os o = Some xs -> f + o < we c /\ exists g, getN (pr_odts p) (f + o) = Some (lenN xs, g) /\
      forall k x, getN xs k = Some x -> k < 2 ^ 16 /\ g + k < we c /\ getN es (g + k) = Some x.

(** [z] and [z'] agree on everything but buffers, counters and statistics. *)
Definition same_slave (z z' : sst) : Prop :=
  same_session (z_st z) (z_st z') /\ z_entries z' = z_entries z /\ z_modes z' = z_modes z.

(** On receiving [f] in [z] the slave sends one frame with payload [bs] and becomes [z1]. *)
Definition sanswers (c : cfg) (p : predef) (e : env) (f : list N) (z : sst) (bs : list N) (z1 : sst) : Prop :=
  exists z' o, sstep c p e (ORecv f) z = Ok (z', o) /\ sends o (padded c bs) /\ same_slave z1 z'.
Definition srefuses (c : cfg) (p : predef) (e : env) (f : list N) (z : sst) (code : N) : Prop := sanswers c p e f z [0xFE; code] z.

(** Mode bits of a list (XCP part 2, 1.6.4.1.2.2). *)
Definition stamped (m : N) : bool := N.testbit m 4.
Definition selected (m : N) : bool := N.testbit m 6.
Definition started (m : N) : bool := N.testbit m 7.
Definition mode_of (z : sst) (l : N) : option N := getN (z_modes z) l.
(** The slave with the mode of one list changed. *)
Definition put_mode (l m : N) (z : sst) : sst := with_modes (put l m (z_modes z)) z.
(** The slave with another DAQ state. *)
Definition zdaq (d : daqst) (z : sst) : sst := with_st (set_s_daq d (z_st z)) z.

(** Time stamp of a sample of list [l]: the list's own mode decides. *)
Definition list_stamp (c : cfg) (e : env) (z : sst) (l : N) : list N :=
  match mode_of z l with Some m => if c_ts c && stamped m then stamp c (e_timer e) else [] | None => [] end.

(** Mode of a list after START_STOP_SYNCH [mode]: a selected list is started by
    mode 1 and stopped by the others, and no longer selected. *)
Definition synched (mode md : N) : N := if selected md then N.clearbit (if mode =? 1 then N.setbit md 7 else N.clearbit md 7) 6 else md.
