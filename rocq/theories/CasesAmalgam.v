(** Files for the examples of the one-file version of the sources. *)
From Coq Require Import NArith List Bool Ascii String.
From Verif Require Import Options Amalgam SpecAmalgam ProofsAmalgam ProofsAmalgam2.
Import ListNotations.
Open Scope N_scope.
Open Scope list_scope.

Definition srcln (s : string) : text := chars s ++ [10].
Definition start_ln : text := srcln "/*!!! START-INCLUDE-SECTION !!!*/".
Definition end_ln : text := srcln "/*!!! END-INCLUDE-SECTION !!!*/".
(** A file with a line above and one below its include section. *)
Definition one_doc (name : string) (body : list string) : doc :=
  Doc [Section [srcln ("#if !defined(" ++ name ++ ")")] start_ln (map srcln body) end_ln] [srcln "#endif"] None.
Definition one_file (dir : list string) (name : string) (body : list string) : file :=
  File (map chars (dir ++ [name])) (List.concat (doc_lines (one_doc name body))).

(** The headers of the repository with their include sections (inc/xcp.h 31-35,
    inc/xcp_hw.h 35-37, inc/xcp_ow.h 31-34, inc/xcp_terminal.h 29-32,
    inc/xcp_tl_timeout.h 43-46, inc/xcp_util.h 35-37; the other texts are cut short). *)
Definition inc_of := one_file [".."; "inc"]%string.
Definition repo_incs : list file :=
  [inc_of "xcp.h" ["    #include ""xcp_macros.h"""; "    #include ""xcp_types.h"""; "    #include ""xcp_util.h"""];
   inc_of "xcp_eth.h" []; inc_of "xcp_hw.h" ["    #include ""xcp.h"""]; inc_of "xcp_macros.h" [];
   inc_of "xcp_ow.h" ["#include ""xcp.h"""; ""];
   inc_of "xcp_terminal.h" ["    #include ""xcp.h"""; "    #include ""xcp_threads.h"""];
   inc_of "xcp_threads.h" []; inc_of "xcp_tl_timeout.h" ["#include ""xcp_types.h"""; ""]; inc_of "xcp_tui.h" [];
   inc_of "xcp_types.h" []; inc_of "xcp_util.h" ["    #include ""xcp_types.h"""]]%string.
Definition repo_srcs : list file :=
  [one_file [".."; "src"] "xcp.c" ["#include ""xcp.h"""; ""; "#include ""xcp_hw.h"""];
   one_file [".."; "src"; "hw"; "win"] "hw.c" ["#include ""xcp.h"""];
   one_file [".."; "src"; "hw"; "arduino"] "hw.cpp" ["#include ""xcp.h"""; ""]]%string.
Definition piece_of (dir : list string) (name : string) : text :=
  piece (map chars (dir ++ [name])) (List.concat [srcln ("#if !defined(" ++ name ++ ")"); srcln "#endif"]).

(** Two headers that include each other; a header that includes one that is left out. *)
Definition ring_incs : list file := [inc_of "a.h" ["#include ""b.h"""]; inc_of "b.h" ["#include ""a.h"""]]%string.
Definition cut_incs : list file := [inc_of "a.h" ["#include ""xcp_tui.h"""]; inc_of "xcp_tui.h" []]%string.
(** A header with nothing but an include section. *)
Definition bare_incs : list file :=
  [File (map chars [".."; "inc"; "all.h"]%string) (List.concat [start_ln; srcln "#include ""a.h"""; end_ln]); inc_of "a.h" []].

Lemma nodup_once l : once [] l = l -> NoDup l.
Proof. intros <-. apply once_spec. Qed.

(** Decision procedures for the hypotheses of the examples. *)
Definition line_okb (l : text) : bool :=
  match rev l with c :: r => (c =? 10) && negb (existsb (N.eqb 10) r) | [] => false end.
Lemma line_ok_check l : line_okb l = true -> line_ok l.
Proof.
  unfold line_okb. destruct (rev l) as [|c r] eqn:E; [discriminate|]. intros H. apply andb_prop in H. destruct H as [H1 H2].
  apply N.eqb_eq in H1. subst c. exists (rev r). split.
  - rewrite <- (rev_involutive l), E. reflexivity.
  - intros K. apply in_rev in K. apply negb_true_iff in H2. assert (existsb (N.eqb 10) r = true); [|congruence].
    apply existsb_exists. exists 10. auto.
Qed.
Definition doc_okb (d : doc) : bool :=
  forallb line_okb (doc_lines d)
  && forallb (fun s => forallb (fun l => negb (marker start_word (strip l))) (sc_before s)
       && marker start_word (strip (sc_open s)) && forallb (fun l => negb (marker end_word (strip l))) (sc_body s)
       && marker end_word (strip (sc_close s))) (dc_sections d)
  && forallb (fun l => negb (marker start_word (strip l))) (dc_after d)
  && match dc_rest d with None => true | Some _ => false end.
Lemma lines_ok_check ls : forallb line_okb ls = true -> lines_ok ls.
Proof.
  induction ls as [|l ls IH]; intros H; [exact I|]. cbn [forallb] in H. apply andb_prop in H. destruct H as [H1 H2].
  apply line_ok_check in H1. destruct ls; [left; auto|]. split; [auto|apply IH; exact H2].
Qed.
Lemma no_marks w ls : wordy w -> forallb (fun l => negb (marker w (strip l))) ls = true -> forall l, In l ls -> ~ marks w l.
Proof.
  intros W H l Hl K. apply marks_iff in K; auto. rewrite forallb_forall in H. specialize (H l Hl). rewrite K in H. discriminate.
Qed.
Lemma doc_ok_check d : doc_okb d = true -> doc_ok d.
Proof.
  unfold doc_okb. intros H. apply andb_prop in H. destruct H as [H H4]. apply andb_prop in H. destruct H as [H H3].
  apply andb_prop in H. destruct H as [H1 H2]. split; [apply lines_ok_check; auto|]. split; [|split].
  - intros s Hs. rewrite forallb_forall in H2. specialize (H2 s Hs). apply andb_prop in H2. destruct H2 as [H2 K4].
    apply andb_prop in H2. destruct H2 as [H2 K3]. apply andb_prop in H2. destruct H2 as [K1 K2]. split; [|split; [|split]].
    + exact (no_marks _ _ start_wordy K1).
    + apply (marks_iff _ _ start_wordy); auto.
    + exact (no_marks _ _ end_wordy K3).
    + apply (marks_iff _ _ end_wordy); auto.
  - exact (no_marks _ _ start_wordy H3).
  - destruct (dc_rest d); [discriminate|exact I].
Qed.
