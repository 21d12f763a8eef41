(** Vocabulary for the slave behind a serial line (C112). *)
From Coq Require Import NArith List Bool.
From Verif Require Import Base Config State Core SpecMem Sxi SpecSxi Serial.
Import ListNotations.
Open Scope N_scope.

(** The calls of the transport layer among the events. *)
Definition polls (l : list sevent) : list poll := flat_map (fun x => match x with SPoll _ p => [p] | SOp _ _ => [] end) l.
(** The other operations. *)
Definition others (l : list sevent) : list (env * op) := flat_map (fun x => match x with SPoll _ _ => [] | SOp e o => [(e, o)] end) l.
Definition envs (l : list sevent) : list env := map (fun x => match x with SPoll e _ => e | SOp e _ => e end) l.

(** The frames [fs] arrive among other operations: what happens if each is a command at the moment its last
    byte is read.  [n] bytes of the first frame are there. *)
Fixpoint weave (n : N) (fs : list sframe) (l : list sevent) : list (env * op) :=
  match l with
  | [] => []
  | SOp e o :: t => (e, o) :: weave n fs t
  | SPoll e p :: t =>
      match p_byte p, fs with
      | Some _, f :: fs' => if n + 1 =? lenN (wire f) then (e, ORecv (f_data f)) :: weave 0 fs' t else weave (n + 1) fs t
      | _, _ => weave n fs t
      end
  end.

(** What is executed: in place of an empty frame once more the contents of the frame before. *)
Fixpoint repeated (prev : list N) (fs : list sframe) : list sframe :=
  match fs with
  | [] => []
  | f :: t => let d := match f_data f with [] => prev | d => d end in mkFrame (f_ctr0 f) (f_ctr1 f) d :: repeated d t
  end.
Fixpoint weave_as (n : N) (fs : list sframe) (ds : list (list N)) (l : list sevent) : list (env * op) :=
  match l with
  | [] => []
  | SOp e o :: t => (e, o) :: weave_as n fs ds t
  | SPoll e p :: t =>
      match p_byte p, fs, ds with
      | Some _, f :: fs', d :: ds' => if n + 1 =? lenN (wire f) then (e, ORecv d) :: weave_as 0 fs' ds' t else weave_as (n + 1) fs ds t
      | _, _, _ => weave_as n fs ds t
      end
  end.

(** Operations of the program around the transport layer: neither a command nor Xcp_Init. *)
Definition around (x : env * op) : Prop := match snd x with ORecv _ | OInit => False | _ => True end.

(** Contents of a frame that are a complete command (all bytes the command looks at are there) and fit the command
    buffer. *)
Definition good (c : cfg) (f : list N) : Prop := complete c f /\ nth 0 f 0 < 256 /\ lenN f <= c_ctobuf c.

(** State and frames. *)
Definition outcome (r : out (rcv * st * list pkt)) : res := '(_, s, o) <- r ;; Ok (s, o).
