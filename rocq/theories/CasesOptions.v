(** Command lines for the examples of C114-C116. *)
From Coq Require Import NArith List Bool String.
From Verif Require Import Base Options SpecOptions.
Import ListNotations.
Open Scope N_scope.

(** -u6 -p 7777 log -p17 *)
Definition line1 : list part := [Flags [FUdp; FIpv6]; PortNext [] (chars "7777"); Plain (chars "log"); PortIn [] (chars "17")].
(** -t -ut *)
Definition line2 : list part := [Flags [FTcp]; Flags [FUdp; FTcp]].
(** -up 71091 *)
Definition line3 : list part := [PortNext [FUdp] (chars "71091")].
(** -f -i can1 -ican2 *)
Definition cline1 : list cpart := [CFd; CIfNext (chars "can1"); CIfIn (chars "can2")].
(** -i with 16 and with 64 letters *)
Definition cline2 : list cpart := [CIfNext (repeat 97 16)].
Definition cline3 : list cpart := [CIfNext (repeat 97 64)].

Lemma all_digits : forall w, forallb (fun c => (48 <=? c) && (c <=? 57)) w = true -> Forall (fun c => 48 <= c <= 57) w.
Proof.
  intros w H. apply Forall_forall. intros x I. apply (proj1 (forallb_forall _ _) H) in I. apply andb_true_iff in I. destruct I as (A & B).
  split; now apply N.leb_le.
Qed.
Lemma line1_proper : Forall (proper true) line1.
Proof.
  apply Forall_cons; [discriminate|]. apply Forall_cons; [exact I|]. apply Forall_cons; [|apply Forall_cons; [discriminate|constructor]].
  split; [reflexivity|]. right; right. do 2 eexists. split; [reflexivity|discriminate].
Qed.
Lemma line1_numeric : numeric line1.
Proof. repeat apply Forall_cons; [split; [split; [discriminate|apply all_digits; reflexivity]|reflexivity]..|constructor]. Qed.
Lemma line3_numeric : numeric line3.
Proof. repeat apply Forall_cons; [split; [split; [discriminate|apply all_digits; reflexivity]|reflexivity]..|constructor]. Qed.
