(** One-file version of the sources: C137-C139. *)
From Coq Require Import NArith List Bool Ascii String.
From Verif Require Import Options Amalgam SpecAmalgam ProofsAmalgam ProofsAmalgam3 CasesAmalgam.
Import ListNotations.
Open Scope string_scope.
Open Scope N_scope.
Open Scope list_scope.

(** C137: each header once, behind all it includes; then the sources. *)
Theorem C137_outcome : forall h incs srcs hs ss, NoDup (map fl_path incs) ->
  Forall2 (header_of h) (used h inc_stop incs) hs -> Forall2 (header_of h) (used h src_stop srcs) ss ->
  outcome hs ss (amalgam h incs srcs).
Proof. exact amalgam_thm. Qed.
Print Assumptions C137_outcome.

Theorem C137_which : forall h incs srcs hs, NoDup (map fl_path incs) -> Forall2 (header_of h) (used h inc_stop incs) hs ->
  (amalgam h incs srcs = Cyclic <-> cyclic hs)
  /\ ((exists t, amalgam h incs srcs = Written t) <-> ~ cyclic hs /\ forall p, mentioned hs p -> exists t, has_text hs p t).
Proof. exact which_thm. Qed.
Print Assumptions C137_which.

(** An included name stands for the file in the directory of the headers; a banner is a
    comment with the name, on lines of its own. *)
Theorem C137_path : forall h n, n <> [] -> n <> chars "." -> ~ In 47 n -> (h = Windows -> ~ In 92 n) ->
  inc_path h n = [chars ".."; chars "inc"; n].
Proof. exact path_thm. Qed.
Print Assumptions C137_path.

Theorem C137_banner : forall p, ~ In 10 (last p []) -> exists a b c,
  banner p = [10] ++ (chars "//" ++ a ++ [10]) ++ (chars "//" ++ b ++ [10]) ++ (chars "//" ++ c ++ [10]) ++ [10]
  /\ ~ In 10 a /\ ~ In 10 b /\ ~ In 10 c /\ within (last p []) b.
Proof. exact banner_thm. Qed.
Print Assumptions C137_banner.

(** The headers of the repository come in the order of tools/arduino/hello_xcp/xcp.h
    (lines 3, 188, 299, 379, 444, 499, 1759). *)
Example C137_case : NoDup (map fl_path repo_incs) /\ (exists hs, Forall2 (header_of Windows) (used Windows inc_stop repo_incs) hs)
  /\ (exists ss, Forall2 (header_of Windows) (used Windows src_stop repo_srcs) ss)
  /\ amalgam Windows repo_incs repo_srcs = Written
      (List.concat (map (piece_of [".."; "inc"])
        ["xcp_macros.h"; "xcp_types.h"; "xcp_eth.h"; "xcp_tl_timeout.h"; "xcp_util.h"; "xcp.h"; "xcp_hw.h"])
       ++ piece_of [".."; "src"] "xcp.c" ++ piece_of [".."; "src"; "hw"; "arduino"] "hw.cpp")
  /\ inc_path Windows (chars "xcp_util.h") = fl_path (last repo_incs (inc_of "" []))
  /\ piece_of [".."; "inc"] "xcp.h" = srcln "" ++ srcln "////////////////////////////////////////////////////////////////////////////////"
       ++ srcln "//                                   xcp.h                                    //"
       ++ srcln "////////////////////////////////////////////////////////////////////////////////" ++ srcln ""
       ++ srcln "#if !defined(xcp.h)" ++ srcln "#endif"
  /\ amalgam Windows ring_incs repo_srcs = Cyclic
  /\ amalgam Windows cut_incs repo_srcs = Failed (map chars [".."; "inc"; "xcp_tui.h"])
       (banner (map chars [".."; "inc"; "xcp_tui.h"]))
  /\ amalgam Windows bare_incs repo_srcs = Failed (map chars [".."; "inc"; "all.h"])
       (piece_of [".."; "inc"] "a.h" ++ banner (map chars [".."; "inc"; "all.h"])).
Proof.
  split; [apply nodup_once; vm_compute; reflexivity|].
  split; [apply headers_thm|]. split; [apply headers_thm|]. repeat split; vm_compute; reflexivity.
Qed.

(** C138: the text outside of the include sections is kept, ... *)
Theorem C138_unique : forall h f, exists x, header_of h f x /\ forall y, header_of h f y -> y = x.
Proof. exact unique_thm. Qed.
Print Assumptions C138_unique.

Theorem C138_kept : forall h incs srcs t f x, NoDup (map fl_path incs) -> amalgam h incs srcs = Written t ->
  (In f (used h inc_stop incs) \/ In f (used h src_stop srcs)) -> header_of h f x -> hd_text x <> [] ->
  within (piece (hd_path x) (hd_text x)) t.
Proof. exact kept_thm. Qed.
Print Assumptions C138_kept.

(** ... but lines in them that include no file in quotes are lost without notice. *)
Theorem C138_refuted : forall h p d l d' a b others,
  doc_ok d -> line_ok l -> ~ marks end_word l -> (forall n, ~ includes_file l n) -> adds_line d l d' ->
  amalgam h (a ++ File p (List.concat (doc_lines d')) :: b) others = amalgam h (a ++ File p (List.concat (doc_lines d)) :: b) others
  /\ amalgam h others (a ++ File p (List.concat (doc_lines d')) :: b) = amalgam h others (a ++ File p (List.concat (doc_lines d)) :: b).
Proof. exact lost_thm. Qed.
Print Assumptions C138_refuted.

Example C138_case : doc_ok (one_doc "a.h" ["#include ""b.h"""]) /\ line_ok (srcln "#include <assert.h>")
  /\ ~ marks end_word (srcln "#include <assert.h>") /\ (forall n, ~ includes_file (srcln "#include <assert.h>") n)
  /\ adds_line (one_doc "a.h" ["#include ""b.h"""]) (srcln "#include <assert.h>")
       (one_doc "a.h" ["#include <assert.h>"; "#include ""b.h"""])
  /\ amalgam Posix [inc_of "a.h" ["#include <assert.h>"; "#include ""b.h"""]; inc_of "b.h" []] []
     = Written (piece_of [".."; "inc"] "b.h" ++ piece_of [".."; "inc"] "a.h").
Proof.
  split; [apply doc_ok_check; vm_compute; reflexivity|]. split; [apply line_ok_check; vm_compute; reflexivity|].
  split; [intros H; apply (marks_iff _ _ end_wordy) in H; vm_compute in H; discriminate|].
  split; [intros n H; apply includes_iff in H; vm_compute in H; discriminate|].
  split; [|vm_compute; reflexivity]. eexists [], _, [], [], _. repeat split.
Qed.

(** C139: on Windows the files of the stop lists have no influence; *)
Theorem C139_stop : forall h incs srcs, amalgam h incs srcs = amalgam h (used h inc_stop incs) (used h src_stop srcs).
Proof. exact stopped_thm. Qed.
Print Assumptions C139_stop.

(** on other hosts all of them get into the file. *)
Theorem C139_refuted : forall incs srcs t f x, NoDup (map fl_path incs) ->
  (forall f, In f (incs ++ srcs) -> (2 <= List.length (fl_path f))%nat) ->
  amalgam Posix incs srcs = Written t -> In f (incs ++ srcs) -> header_of Posix f x -> hd_text x <> [] ->
  within (piece (hd_path x) (hd_text x)) t.
Proof. exact posix_thm. Qed.
Print Assumptions C139_refuted.

Example C139_case : (forall f, In f (repo_incs ++ repo_srcs) -> (2 <= List.length (fl_path f))%nat)
  /\ List.length (used Windows inc_stop repo_incs ++ used Windows src_stop repo_srcs) = 9%nat
  /\ List.length (used Posix inc_stop repo_incs ++ used Posix src_stop repo_srcs) = 14%nat
  /\ amalgam Posix repo_incs repo_srcs = Written
      (List.concat (map (piece_of [".."; "inc"])
        ["xcp_macros.h"; "xcp_types.h"; "xcp_eth.h"; "xcp_threads.h"; "xcp_tui.h"; "xcp_tl_timeout.h"; "xcp_util.h";
         "xcp.h"; "xcp_hw.h"; "xcp_ow.h"; "xcp_terminal.h"])
       ++ piece_of [".."; "src"] "xcp.c" ++ piece_of [".."; "src"; "hw"; "win"] "hw.c"
       ++ piece_of [".."; "src"; "hw"; "arduino"] "hw.cpp").
Proof.
  split; [|repeat split; vm_compute; reflexivity].
  assert (forallb (fun f => Nat.leb 2 (List.length (fl_path f))) (repo_incs ++ repo_srcs) = true) as H by (vm_compute; reflexivity).
  intros f Hf. rewrite forallb_forall in H. apply PeanoNat.Nat.leb_le, H, Hf.
Qed.
