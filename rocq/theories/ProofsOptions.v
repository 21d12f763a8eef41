From Coq Require Import NArith ZArith List Bool String Lia ZifyBool ZifyNat ZifyN.
From Verif Require Import Base Lists Options SpecOptions.
Import ListNotations.
Open Scope N_scope.
Ltac Zify.zify_post_hook ::= Z.div_mod_to_equations.

(** ** Numbers *)

Lemma digits_num : forall w a, Forall (fun c => 48 <= c <= 57) w -> digits (Z.of_N a) w = Z.of_N (fold_left (fun a c => 10 * a + (c - 48)) w a).
Proof.
  induction w as [|c w IH]; intros a H; [reflexivity|]. cbn [digits fold_left]. pose proof (Forall_inv H) as C. cbn beta in C. apply Forall_inv_tail in H.
  unfold is_digit. destruct (N.leb_spec 48 c); [|lia]. destruct (N.leb_spec c 57); [|lia]. cbn [andb].
  rewrite <- IH by exact H. f_equal. lia.
Qed.
Lemma atoi_num : forall w, is_num w -> value w < 2 ^ 31 -> atoi w = Some (Z.of_N (value w)).
Proof.
  intros w (N & H) L. destruct w as [|c w]; [contradiction|]. pose proof (Forall_inv H) as C. cbn beta in C.
  assert (E : atoi_all (c :: w) = Z.of_N (value (c :: w))).
  { cbn [atoi_all]. unfold is_space. destruct (N.eqb_spec c 32); [lia|]. destruct (N.leb_spec 9 c); [|lia]. destruct (N.leb_spec c 13); [lia|]. cbn [orb andb].
    unfold number. destruct (N.eqb_spec c (ch "-")) as [E|]; [change (ch "-") with 45 in E; lia|].
    destruct (N.eqb_spec c (ch "+")) as [E|]; [change (ch "+") with 43 in E; lia|]. apply (digits_num (c :: w) 0). exact H. }
  unfold atoi. rewrite E. assert (Q : ((- 2 ^ 31 <=? Z.of_N (value (c :: w))) && (Z.of_N (value (c :: w)) <? 2 ^ 31))%Z = true) by lia. rewrite Q. reflexivity.
Qed.

(** ** Words to events *)

Definition flag_evs (fs : list flag) : list event := map (fun f => Opt (letter f) []) fs.
Definition part_evs (p : part) : list event :=
  match p with
  | Flags fs => flag_evs fs
  | PortIn fs n | PortNext fs n => flag_evs fs ++ [Opt (ch "p") n]
  | Plain _ => []
  end.
Lemma cluster_flags : forall fs w, cluster eth_os (map letter fs ++ w) =
  (flag_evs fs ++ fst (cluster eth_os w), snd (cluster eth_os w)).
Proof.
  induction fs as [|f fs IH]; intro w; [cbn [map app flag_evs]; now destruct (cluster eth_os w)|].
  cbn [map app flag_evs cluster]. assert (K : known eth_os (letter f) = Some false) by (destruct f; reflexivity). rewrite K, IH. reflexivity.
Qed.
Lemma letter_dash : forall f, (letter f =? ch "-") = false. Proof. destruct f; reflexivity. Qed.
Lemma getopt_dash : forall perm os c r t, (c =? ch "-") = false \/ r <> [] ->
  getopt perm os None ((ch "-" :: c :: r) :: t) = fst (cluster os (c :: r)) ++ getopt perm os (snd (cluster os (c :: r))) t.
Proof.
  intros perm os c r t H. cbn [getopt]. rewrite N.eqb_refl.
  assert (K : (c =? ch "-") && (lenN r =? 0) = false). { destruct H as [->|H]; [reflexivity|]. destruct r; [contradiction|]. rewrite lenN_cons. destruct (N.eqb_spec (lenN r + 1) 0); [lia|]. apply andb_false_r. }
  rewrite K. destruct (cluster os (c :: r)). reflexivity.
Qed.
Lemma getopt_plain : forall os w t, not_option w -> getopt true os None (w :: t) = getopt true os None t.
Proof.
  intros os w t [->|[->|(c & r & -> & N)]]; [reflexivity|reflexivity|]. cbn [getopt]. destruct r; [reflexivity|].
  destruct (N.eqb_spec c (ch "-")); [contradiction|reflexivity].
Qed.
Lemma getopt_fs : forall perm fs w t, w <> [] -> (fs = [] -> hd 0 w <> ch "-" \/ tl w <> []) ->
  getopt perm eth_os None ((ch "-" :: map letter fs ++ w) :: t) =
  flag_evs fs ++ fst (cluster eth_os w) ++ getopt perm eth_os (snd (cluster eth_os w)) t.
Proof.
  intros perm fs w t N D. pose proof (cluster_flags fs w) as C. destruct (map letter fs ++ w) as [|c r] eqn:E.
  - destruct fs; cbn in E; [contradiction|discriminate].
  - rewrite getopt_dash.
    + rewrite C. cbn [fst snd]. now rewrite <- app_assoc.
    + destruct fs as [|f fs]; cbn [map app] in E.
      * subst w. specialize (D eq_refl). cbn [hd tl] in D. destruct D as [D|D]; [left; now apply N.eqb_neq|now right].
      * left. injection E as <- _. apply letter_dash.
Qed.
Lemma getopt_part : forall perm p t, proper perm p -> getopt perm eth_os None (words_of p ++ t) = part_evs p ++ getopt perm eth_os None t.
Proof.
  intros perm [fs|fs n|fs n|w] t P; cbn [words_of app part_evs proper] in *.
  - destruct fs as [|f fs]; [contradiction|]. cbn [map].
    rewrite getopt_dash by (left; apply letter_dash).
    pose proof (cluster_flags (f :: fs) []) as C. rewrite app_nil_r in C. cbn [map] in C. rewrite C. cbn [fst snd cluster]. now rewrite app_nil_r.
  - rewrite getopt_fs; [|discriminate|intros _; left; discriminate]. rewrite <- app_assoc. f_equal.
    cbn [cluster]. change (known eth_os (ch "p")) with (Some true). cbn [fst snd]. destruct n; [contradiction|]. reflexivity.
  - rewrite getopt_fs; [|discriminate|intros _; left; discriminate]. rewrite <- app_assoc. reflexivity.
  - destruct P as (-> & P). now apply getopt_plain.
Qed.
Lemma getopt_parts : forall perm ps t, Forall (proper perm) ps ->
  getopt perm eth_os None (words ps ++ t) = flat_map part_evs ps ++ getopt perm eth_os None t.
Proof.
  intros perm ps t H. induction H as [|p ps P H IH]; [reflexivity|]. unfold words. cbn [flat_map]. rewrite <- !app_assoc.
  rewrite getopt_part by exact P. fold (words ps). now rewrite IH.
Qed.

(** ** The loop *)

Definition cnt (b : bool) (f : flag -> bool) (fs : list flag) : N := (if b then 1 else 0) + lenN (filter f fs).
Definition nt (f : flag) : bool := negb (is_tp f).
Definition has (f : flag) (fs : list flag) : bool := existsb (fun g => letter g =? letter f) fs.
Definition pick (a b : flag) (fs : list flag) (d : bool) : bool := if has a fs then true else if has b fs then false else d.
Definition zport (w : word) (d : N) : N := match atoi w with Some z => Z.to_N (z mod 2 ^ 16) | None => d end.
Definition after (o : eth_opts) (fs : list flag) (ns : list word) : eth_opts :=
  mkEth (pick FIpv6 FIpv4 fs (eo_ipv6 o)) (pick FTcp FUdp fs (eo_tcp o)) (fold_left (fun d w => zport w d) ns (eo_port o)).

Lemma has_cons : forall f g fs, has f (g :: fs) = (letter g =? letter f) || has f fs. Proof. reflexivity. Qed.
Lemma none_tp : forall fs, lenN (filter is_tp fs) = 0 -> has FTcp fs = false /\ has FUdp fs = false.
Proof.
  induction fs as [|f fs IH]; intro H; [auto|]. cbn [filter] in H. unfold has in *. cbn [existsb].
  destruct f; cbn [is_tp] in H; try (rewrite lenN_cons in H; lia); apply IH; exact H.
Qed.
Lemma none_nt : forall fs, lenN (filter nt fs) = 0 -> has FIpv4 fs = false /\ has FIpv6 fs = false.
Proof.
  induction fs as [|f fs IH]; intro H; [auto|]. cbn [filter] in H. unfold has in *. cbn [existsb].
  destruct f; cbn [is_tp nt negb] in H; try (rewrite lenN_cons in H; lia); apply IH; exact H.
Qed.
Definition over (p v : bool) (fs : list flag) : bool := (1 <? cnt p is_tp fs) || (1 <? cnt v nt fs).
Lemma loop_flags : forall fs o p v rest,
  eth_loop o p v (flag_evs fs ++ rest) =
  if over p v fs then Exit 1
  else eth_loop (after o fs []) (p || (0 <? lenN (filter is_tp fs))) (v || (0 <? lenN (filter nt fs))) rest.
Proof.
  induction fs as [|f fs IH]; intros o p v rest.
  - unfold over, cnt. cbn [filter flag_evs map app after has existsb pick fold_left]. change (lenN []) with 0.
    destruct p, v; destruct o; reflexivity.
  - cbn [flag_evs map app].
    destruct f; cbn [eth_loop letter].
    + change (ch "t" =? ch "h") with false. change (ch "t" =? ch "t") with true. cbv iota.
      destruct p.
      { assert (Q : over true v (FTcp :: fs) = true) by (unfold over, cnt; cbn [filter is_tp nt negb]; rewrite lenN_cons; lia). now rewrite Q. }
      fold (flag_evs fs). rewrite IH.
      assert (Q : over false v (FTcp :: fs) = over true v fs) by (unfold over, cnt; cbn [filter is_tp nt negb]; rewrite lenN_cons; f_equal; lia).
      rewrite Q. destruct (over true v fs) eqn:O; [reflexivity|]. cbn [filter is_tp nt negb]. rewrite lenN_cons.
      f_equal; [|destruct v; cbn [orb]; lia]. unfold after, pick. cbn [eo_ipv6 eo_tcp eo_port fold_left].
      assert (Z : lenN (filter is_tp fs) = 0) by (unfold over, cnt in O; lia). apply none_tp in Z. destruct Z as (Z1 & Z2).
      rewrite !has_cons, Z1, Z2. reflexivity.
    + change (ch "u" =? ch "h") with false. change (ch "u" =? ch "t") with false. change (ch "u" =? ch "u") with true. cbv iota.
      destruct p.
      { assert (Q : over true v (FUdp :: fs) = true) by (unfold over, cnt; cbn [filter is_tp nt negb]; rewrite lenN_cons; lia). now rewrite Q. }
      fold (flag_evs fs). rewrite IH.
      assert (Q : over false v (FUdp :: fs) = over true v fs) by (unfold over, cnt; cbn [filter is_tp nt negb]; rewrite lenN_cons; f_equal; lia).
      rewrite Q. destruct (over true v fs) eqn:O; [reflexivity|]. cbn [filter is_tp nt negb]. rewrite lenN_cons.
      f_equal; [|destruct v; cbn [orb]; lia]. unfold after, pick. cbn [eo_ipv6 eo_tcp eo_port fold_left].
      assert (Z : lenN (filter is_tp fs) = 0) by (unfold over, cnt in O; lia). apply none_tp in Z. destruct Z as (Z1 & Z2).
      rewrite !has_cons, Z1, Z2. reflexivity.
    + change (ch "4" =? ch "h") with false. change (ch "4" =? ch "t") with false. change (ch "4" =? ch "u") with false. change (ch "4" =? ch "4") with true. cbv iota.
      destruct v.
      { assert (Q : over p true (FIpv4 :: fs) = true) by (unfold over, cnt; cbn [filter is_tp nt negb]; rewrite lenN_cons; lia). now rewrite Q. }
      fold (flag_evs fs). rewrite IH.
      assert (Q : over p false (FIpv4 :: fs) = over p true fs) by (unfold over, cnt; cbn [filter is_tp nt negb]; rewrite lenN_cons; f_equal; lia).
      rewrite Q. destruct (over p true fs) eqn:O; [reflexivity|]. cbn [filter is_tp nt negb]. rewrite lenN_cons.
      f_equal; [|destruct p; cbn [orb]; lia]. unfold after, pick. cbn [eo_ipv6 eo_tcp eo_port fold_left].
      assert (Z : lenN (filter nt fs) = 0) by (unfold over, cnt in O; lia). apply none_nt in Z. destruct Z as (Z1 & Z2).
      rewrite !has_cons, Z1, Z2. reflexivity.
    + change (ch "6" =? ch "h") with false. change (ch "6" =? ch "t") with false. change (ch "6" =? ch "u") with false. change (ch "6" =? ch "4") with false. change (ch "6" =? ch "6") with true. cbv iota.
      destruct v.
      { assert (Q : over p true (FIpv6 :: fs) = true) by (unfold over, cnt; cbn [filter is_tp nt negb]; rewrite lenN_cons; lia). now rewrite Q. }
      fold (flag_evs fs). rewrite IH.
      assert (Q : over p false (FIpv6 :: fs) = over p true fs) by (unfold over, cnt; cbn [filter is_tp nt negb]; rewrite lenN_cons; f_equal; lia).
      rewrite Q. destruct (over p true fs) eqn:O; [reflexivity|]. cbn [filter is_tp nt negb]. rewrite lenN_cons.
      f_equal; [|destruct p; cbn [orb]; lia]. unfold after, pick. cbn [eo_ipv6 eo_tcp eo_port fold_left].
      assert (Z : lenN (filter nt fs) = 0) by (unfold over, cnt in O; lia). apply none_nt in Z. destruct Z as (Z1 & Z2).
      rewrite !has_cons, Z1, Z2. reflexivity.
Qed.

Lemma has_app : forall f a b, has f (a ++ b) = has f a || has f b. Proof. intros. apply existsb_app. Qed.
Lemma cnt_app : forall b f x y, cnt b f (x ++ y) = cnt b f x + lenN (filter f y).
Proof. intros. unfold cnt. rewrite filter_app, lenN_app. lia. Qed.
Lemma over_app : forall p v a b, over p v (a ++ b) =
  over p v a || over (p || (0 <? lenN (filter is_tp a))) (v || (0 <? lenN (filter nt a))) b.
Proof. intros p v a b. unfold over. rewrite !cnt_app. unfold cnt.
  destruct (N.ltb_spec 0 (lenN (filter is_tp a))), (N.ltb_spec 0 (lenN (filter nt a))), p, v; cbn [orb]; lia. Qed.
Lemma after_app : forall o p v a b x y, over p v (a ++ b) = false -> after (after o a x) b y = after o (a ++ b) (x ++ y).
Proof.
  intros o p v a b x y O. unfold after. cbn [eo_ipv6 eo_tcp eo_port]. rewrite fold_left_app.
  unfold over in O. rewrite !cnt_app in O. unfold cnt in O. unfold pick. rewrite !has_app.
  assert (T : lenN (filter is_tp a) = 0 \/ lenN (filter is_tp b) = 0) by lia.
  assert (V : lenN (filter nt a) = 0 \/ lenN (filter nt b) = 0) by lia.
  f_equal.
  - destruct V as [V|V]; apply none_nt in V; destruct V as (-> & ->); cbn [orb]; rewrite ?orb_false_r; reflexivity.
  - destruct T as [T|T]; apply none_tp in T; destruct T as (-> & ->); cbn [orb]; rewrite ?orb_false_r; reflexivity.
Qed.
Definition okport (n : word) : Prop := is_num n /\ value n < 2 ^ 31.
Lemma loop_port : forall o p v n rest, okport n ->
  eth_loop o p v (Opt (ch "p") n :: rest) = eth_loop (after o [] [n]) p v rest.
Proof.
  intros o p v n rest (A & B). cbn [eth_loop]. change (ch "p" =? ch "h") with false. change (ch "p" =? ch "t") with false.
  change (ch "p" =? ch "u") with false. change (ch "p" =? ch "4") with false. change (ch "p" =? ch "6") with false. cbv iota.
  unfold after, zport. cbn [fold_left]. rewrite (atoi_num n A B). destruct o. reflexivity.
Qed.
Lemma after_nil : forall o, after o [] [] = o. Proof. intros []. reflexivity. Qed.
Lemma loop_parts : forall ps o p v rest, numeric ps ->
  eth_loop o p v (flat_map part_evs ps ++ rest) =
  if over p v (flags_in ps) then Exit 1
  else eth_loop (after o (flags_in ps) (ports_in ps)) (p || (0 <? lenN (filter is_tp (flags_in ps)))) (v || (0 <? lenN (filter nt (flags_in ps)))) rest.
Proof.
  induction ps as [|a ps IH]; intros o p v rest H.
  - cbn [flat_map app flags_in ports_in]. rewrite after_nil. unfold over, cnt. cbn [filter]. change (lenN []) with 0. destruct p, v; reflexivity.
  - assert (H2 : numeric ps). { unfold numeric, ports_in in *. cbn [flat_map] in H. apply Forall_app in H. apply H. }
    assert (G : forall fs ns, Forall okport ns -> (ns = [] \/ exists n, ns = [n]) ->
      eth_loop o p v ((flag_evs fs ++ map (Opt (ch "p")) ns) ++ flat_map part_evs ps ++ rest) =
      if over p v (fs ++ flags_in ps) then Exit 1
      else eth_loop (after o (fs ++ flags_in ps) (ns ++ ports_in ps)) (p || (0 <? lenN (filter is_tp (fs ++ flags_in ps)))) (v || (0 <? lenN (filter nt (fs ++ flags_in ps)))) rest).
    { intros fs ns F Q. rewrite <- app_assoc. rewrite loop_flags. rewrite over_app. destruct (over p v fs) eqn:O; [reflexivity|]. cbn [orb].
      assert (S : eth_loop (after o fs []) (p || (0 <? lenN (filter is_tp fs))) (v || (0 <? lenN (filter nt fs))) (map (Opt (ch "p")) ns ++ flat_map part_evs ps ++ rest) =
                  eth_loop (after o fs ns) (p || (0 <? lenN (filter is_tp fs))) (v || (0 <? lenN (filter nt fs))) (flat_map part_evs ps ++ rest)).
      { destruct Q as [->|(n & ->)]; [reflexivity|]. cbn [map app]. rewrite loop_port by exact (Forall_inv F).
        rewrite (after_app o p v fs [] [] [n]) by (now rewrite app_nil_r). rewrite app_nil_r. reflexivity. }
      rewrite S, IH by exact H2. destruct (over (p || (0 <? lenN (filter is_tp fs))) (v || (0 <? lenN (filter nt fs))) (flags_in ps)) eqn:O2; [reflexivity|].
      rewrite (after_app o p v) by (rewrite over_app, O, O2; reflexivity). rewrite !filter_app, !lenN_app.
      f_equal; [destruct p|destruct v]; cbn [orb]; lia. }
    unfold numeric, ports_in in H. cbn [flat_map] in H. apply Forall_app in H. destruct H as (H & _).
    cbn [flat_map]. rewrite <- app_assoc. unfold flags_in, ports_in. cbn [flat_map]. fold (flags_in ps). fold (ports_in ps).
    destruct a as [fs|fs n|fs n|w]; cbn [part_evs].
    + rewrite <- (app_nil_r (flag_evs fs)). apply (G fs []); [constructor|now left].
    + apply (G fs [n]); [exact H|right; eauto].
    + apply (G fs [n]); [exact H|right; eauto].
    + apply (G [] []); [constructor|now left].
Qed.

(** ** C114 *)

Lemma once_over : forall ps, once ps <-> over false false (flags_in ps) = false.
Proof. intro ps. unfold once, over, cnt. change (fun f => negb (is_tp f)) with nt. lia. Qed.
Lemma has_in : forall f fs, has f fs = true <-> In f fs.
Proof.
  intros f fs. unfold has. rewrite existsb_exists. split.
  - intros (x & I & E). apply N.eqb_eq in E. destruct x, f; try discriminate; exact I.
  - intro I. exists f. split; [exact I|apply N.eqb_refl].
Qed.
Lemma last_snoc : forall A (l : list A) x d, last (l ++ [x]) d = x.
Proof. induction l as [|y l IH]; intros x d; [reflexivity|]. cbn [app last]. destruct (l ++ [x]) eqn:E; [destruct l; discriminate|]. rewrite <- E. apply IH. Qed.
Lemma ports_last : forall ns d, Forall okport ns -> fold_left (fun d w => zport w d) ns d =
  if lenN ns =? 0 then d else value (last ns []) mod 2 ^ 16.
Proof.
  intros ns d F. destruct ns as [|n ns _] using rev_ind; [reflexivity|]. rewrite fold_left_app. cbn [fold_left]. rewrite last_snoc, lenN_app.
  change (lenN [n]) with 1. destruct (N.eqb_spec (lenN ns + 1) 0); [lia|]. apply Forall_app in F. destruct F as (_ & F). apply Forall_inv in F.
  unfold zport. rewrite atoi_num by apply F. rewrite <- (N2Z.id (value n mod 2 ^ 16)). f_equal. rewrite N2Z.inj_mod. reflexivity.
Qed.
Lemma after_wanted : forall ps, numeric ps -> once ps -> wanted ps (after eth_default (flags_in ps) (ports_in ps)).
Proof.
  intros ps Nu O. apply once_over in O. unfold over, cnt in O. unfold wanted, after, pick. cbn [eo_tcp eo_ipv6 eo_port eth_default].
  rewrite <- !has_in. split; [|split].
  - destruct (has FTcp (flags_in ps)) eqn:A, (has FUdp (flags_in ps)) eqn:B; try (split; congruence). exfalso.
    apply has_in in A, B. apply in_split in A. destruct A as (x & y & E). rewrite E in *. rewrite filter_app in O. cbn [filter is_tp] in O.
    rewrite !lenN_app, lenN_cons in O. assert (Z : lenN (filter is_tp x) = 0 /\ lenN (filter is_tp y) = 0) by lia. destruct Z as (Z1 & Z2).
    apply none_tp in Z1, Z2. apply in_app_iff in B. destruct B as [B|[B|B]]; [|discriminate|]; apply has_in in B; destruct Z1, Z2; congruence.
  - destruct (has FIpv6 (flags_in ps)) eqn:A, (has FIpv4 (flags_in ps)) eqn:B; split; congruence.
  - apply ports_last. exact Nu.
Qed.
Lemma parse_parts : forall perm ps t, Forall (proper perm) ps -> numeric ps ->
  parse_eth perm (words ps ++ t) =
  if over false false (flags_in ps) then Exit 1
  else eth_loop (after eth_default (flags_in ps) (ports_in ps)) (0 <? lenN (filter is_tp (flags_in ps))) (0 <? lenN (filter nt (flags_in ps))) (getopt perm eth_os None t).
Proof. intros perm ps t P Nu. unfold parse_eth. rewrite getopt_parts by exact P. rewrite loop_parts by exact Nu. reflexivity. Qed.

Lemma accept_thm : forall perm ps, Forall (proper perm) ps -> numeric ps -> once ps ->
  exists o, parse_eth perm (words ps) = Parsed o /\ wanted ps o.
Proof.
  intros perm ps P Nu O. exists (after eth_default (flags_in ps) (ports_in ps)). split; [|now apply after_wanted].
  rewrite <- (app_nil_r (words ps)). rewrite parse_parts by auto. apply once_over in O. rewrite O. reflexivity.
Qed.
Lemma refuse_thm : forall perm ps t, Forall (proper perm) ps -> numeric ps -> ~ once ps -> parse_eth perm (words ps ++ t) = Exit 1.
Proof.
  intros perm ps t P Nu O. rewrite parse_parts by auto. rewrite once_over in O. destruct (over false false (flags_in ps)); [reflexivity|congruence].
Qed.
Lemma dashes_thm : forall perm ps t, Forall (proper perm) ps -> numeric ps ->
  parse_eth perm (words ps ++ [ch "-"; ch "-"] :: t) = parse_eth perm (words ps).
Proof.
  intros perm ps t P Nu. rewrite <- (app_nil_r (words ps)) at 2. rewrite !parse_parts by auto. reflexivity.
Qed.
Lemma stop_thm : forall ps w t, Forall (proper false) ps -> numeric ps -> not_option w ->
  parse_eth false (words ps ++ w :: t) = parse_eth false (words ps).
Proof.
  intros ps w t P Nu N. rewrite <- (app_nil_r (words ps)) at 2. rewrite !parse_parts by auto.
  destruct (over false false (flags_in ps)); [reflexivity|]. f_equal.
  destruct N as [->|[->|(c & r & -> & N)]]; [reflexivity|reflexivity|]. cbn [getopt]. destruct r; [reflexivity|].
  destruct (N.eqb_spec c (ch "-")); [contradiction|reflexivity].
Qed.
Lemma unknown_bad : forall c, ~ In c (map letter [FTcp; FUdp; FIpv4; FIpv6] ++ [ch "p"]) -> known eth_os c = None \/ c = ch "h".
Proof.
  intros c N. destruct (N.eq_dec c (ch "h")) as [->|H]; [now right|left].
  assert (Q : c <> ch "t" /\ c <> ch "u" /\ c <> ch "4" /\ c <> ch "6" /\ c <> ch "p") by (cbn [map letter app In] in N; intuition).
  destruct Q as (Q1 & Q2 & Q3 & Q4 & Q5). unfold eth_os. change (chars "htu46p:") with [ch "h"; ch "t"; ch "u"; ch "4"; ch "6"; ch "p"; ch ":"].
  cbn [known].
  repeat match goal with |- context [?a =? c] => destruct (N.eqb_spec a c); [subst; try congruence|] end; cbn [andb]; try reflexivity.
Qed.
Lemma help_thm : forall perm ps fs w t, Forall (proper perm) ps -> numeric ps -> once (ps ++ [Flags fs]) -> asks_help fs w t ->
  parse_eth perm (words ps ++ w :: t) = Exit 0.
Proof.
  intros perm ps fs w t P Nu O A. rewrite parse_parts by auto. apply once_over in O. unfold flags_in in O. rewrite flat_map_app in O. fold (flags_in ps) in O.
  cbn [flat_map] in O. rewrite app_nil_r, over_app in O. cbn [orb] in O. destruct (over false false (flags_in ps)); [discriminate|]. cbn [orb] in O.
  destruct A as [(c & r & -> & D & N)|(-> & ->)].
  - rewrite getopt_fs.
    + rewrite loop_flags, O. cbn [cluster]. apply unknown_bad in N. destruct N as [N| ->]; [rewrite N|change (known eth_os (ch "h")) with (Some false)]; destruct (cluster eth_os r); reflexivity.
    + discriminate.
    + intros ->. cbn [hd tl map app] in *. destruct (N.eq_dec c (ch "-")) as [->|]; [right|now left]. intros ->. now apply D.
  - rewrite getopt_fs; [|discriminate|intros _; left; discriminate]. rewrite loop_flags, O. reflexivity.
Qed.

(** The port. *)
Lemma port_thm : forall perm ps, Forall (proper perm) ps -> numeric ps -> once ps -> ports_in ps <> [] ->
  exists o, parse_eth perm (words ps) = Parsed o /\ en_port (listens o) = value (last (ports_in ps) []) mod 2 ^ 16 /\
    (en_port (listens o) = value (last (ports_in ps) []) <-> value (last (ports_in ps) []) < 2 ^ 16) /\
    (announces o = listens o <-> value (last (ports_in ps) []) mod 2 ^ 16 = 5555).
Proof.
  intros perm ps P Nu O N. destruct (accept_thm perm ps P Nu O) as (o & E & W). exists o. split; [exact E|].
  destruct W as (_ & _ & W). destruct (ports_in ps) as [|n ns] eqn:Q; [contradiction|]. rewrite lenN_cons in W.
  destruct (N.eqb_spec (lenN ns + 1) 0); [lia|]. unfold listens, announces. cbn [en_port]. rewrite W. set (k := value _). split; [reflexivity|]. split; [split; lia|].
  split; intro H; [injection H as H; auto|]. rewrite H. reflexivity.
Qed.
Lemma garbage_thm : forall perm ps c w, Forall (proper perm) ps -> numeric ps -> once ps -> ~ blank c -> ~ 48 <= c <= 57 ->
  c <> ch "+" -> c <> ch "-" ->
  exists o, parse_eth perm (words ps ++ [[ch "-"; ch "p"]; c :: w]) = Parsed o /\ en_port (listens o) = 0.
Proof.
  intros perm ps c w P Nu O S D Pl Mi.
  assert (S' : is_space c = false) by (unfold blank in S; unfold is_space; cbn [In] in S; lia). assert (D' : is_digit c = false) by (unfold is_digit; lia).
  rewrite parse_parts by auto. apply once_over in O. rewrite O.
  cbn [getopt]. rewrite N.eqb_refl. change (ch "p" =? ch "-") with false. cbn [andb]. cbn [cluster]. change (known eth_os (ch "p")) with (Some true). cbn [app].
  cbn [eth_loop]. change (ch "p" =? ch "h") with false. change (ch "p" =? ch "t") with false.
  change (ch "p" =? ch "u") with false. change (ch "p" =? ch "4") with false. change (ch "p" =? ch "6") with false. cbv iota.
  assert (E : atoi (c :: w) = Some 0%Z).
  { unfold atoi. cbn [atoi_all]. rewrite S'. unfold number. destruct (N.eqb_spec c (ch "-")); [contradiction|]. destruct (N.eqb_spec c (ch "+")); [contradiction|].
    cbn [digits]. rewrite D'. reflexivity. }
  rewrite E. eexists. split; reflexivity.
Qed.

(** ** C115 *)

Definition cpart_evs (p : cpart) : list event :=
  match p with CFd => [Opt (ch "f") []] | CIfIn n | CIfNext n => [Opt (ch "i") n] | CPlain _ => [] end.
Lemma cgetopt_parts : forall perm ps t, Forall (cproper perm) ps ->
  getopt perm can_os None (cwords ps ++ t) = flat_map cpart_evs ps ++ getopt perm can_os None t.
Proof.
  intros perm ps t H. induction H as [|p ps P H IH]; [reflexivity|]. unfold cwords. cbn [flat_map]. rewrite <- !app_assoc. fold (cwords ps). rewrite <- IH.
  destruct p as [|n|n|w]; cbn [cwords_of cpart_evs app cproper] in *.
  - reflexivity.
  - rewrite getopt_dash by (left; reflexivity). cbn [cluster]. change (known can_os (ch "i")) with (Some true). destruct n; [contradiction|]. reflexivity.
  - rewrite getopt_dash by (left; reflexivity). reflexivity.
  - destruct P as (-> & P). now apply getopt_plain.
Qed.
Definition is_fd (p : cpart) : bool := match p with CFd => true | _ => false end.
Definition newest (i : option word) (ns : list word) : option word := match ns with [] => i | _ => Some (last ns []) end.
Lemma newest_cons : forall i n ns, newest i (n :: ns) = newest (Some n) ns.
Proof. intros i n [|m ns]; reflexivity. Qed.
Lemma can_parts : forall ps fd i rest,
  can_loop fd i (flat_map cpart_evs ps ++ rest) =
  if existsb (fun n => 64 <=? lenN n) (names_in ps) then Undefined
  else can_loop (fd || existsb is_fd ps) (newest i (names_in ps)) rest.
Proof.
  induction ps as [|p ps IH]; intros fd i rest.
  - cbn [flat_map app names_in existsb newest]. now rewrite orb_false_r.
  - unfold names_in. cbn [flat_map]. fold (names_in ps). destruct p as [|n|n|w]; cbn [cpart_evs app is_fd existsb].
    + cbn [can_loop]. change (ch "f" =? ch "h") with false. change (ch "f" =? ch "f") with true. cbv iota. rewrite IH. cbn [orb]. now rewrite orb_true_r.
    + cbn [can_loop]. change (ch "i" =? ch "h") with false. change (ch "i" =? ch "f") with false. cbv iota.
      destruct (N.leb_spec 64 (lenN n)), (N.ltb_spec (lenN n) 64); try lia; [reflexivity|]. rewrite IH. cbn [orb]. now rewrite newest_cons.
    + cbn [can_loop]. change (ch "i" =? ch "h") with false. change (ch "i" =? ch "f") with false. cbv iota.
      destruct (N.leb_spec 64 (lenN n)), (N.ltb_spec (lenN n) 64); try lia; [reflexivity|]. rewrite IH. cbn [orb]. now rewrite newest_cons.
    + rewrite IH. cbn [orb]. reflexivity.
Qed.
Lemma fd_in : forall ps, existsb is_fd ps = true <-> In CFd ps.
Proof.
  intro ps. rewrite existsb_exists. split.
  - intros (x & I & E). destruct x; try discriminate. exact I.
  - intro I. exists CFd. auto.
Qed.
Lemma last_in : forall A (l : list A) d, l <> [] -> In (last l d) l.
Proof. intros A l d H. destruct l as [|x l _] using rev_ind; [contradiction|]. rewrite last_snoc. apply in_app_iff. right. now left. Qed.
Lemma last_def : forall A (l : list A) d e, l <> [] -> last l d = last l e.
Proof. intros A l d e H. destruct l as [|x l _] using rev_ind; [contradiction|]. now rewrite !last_snoc. Qed.
Lemma no_long : forall ns, Forall (fun n => lenN n < 64) ns -> existsb (fun n : word => 64 <=? lenN n) ns = false.
Proof.
  intros ns H. induction H as [|n ns L H IH]; [reflexivity|]. cbn [existsb]. rewrite IH. destruct (N.leb_spec 64 (lenN n)); [lia|reflexivity].
Qed.
Lemma can_thm : forall perm ps, Forall (cproper perm) ps -> Forall (fun n => lenN n < 64) (names_in ps) ->
  exists o, parse_can perm (cwords ps) = Parsed o /\ (co_fd o = true <-> In CFd ps) /\ co_if o = last (names_in ps) (chars "vcan0").
Proof.
  intros perm ps P L. unfold parse_can. rewrite <- (app_nil_r (cwords ps)). rewrite cgetopt_parts by exact P. rewrite can_parts, no_long by exact L.
  eexists. split; [reflexivity|]. cbn [orb co_fd co_if]. split; [apply fd_in|]. destruct (names_in ps); [reflexivity|]. cbn [newest]. now apply last_def.
Qed.
Lemma can_start_thm : forall perm ps, Forall (cproper perm) ps -> Forall (fun n => lenN n < 64) (names_in ps) ->
  if lenN (last (names_in ps) (chars "vcan0")) <? 16
  then exists o, start_can perm (cwords ps) = Parsed o /\ (co_fd o = true <-> In CFd ps) /\ co_if o = last (names_in ps) (chars "vcan0")
  else start_can perm (cwords ps) = Undefined.
Proof.
  intros perm ps P L. destruct (can_thm perm ps P L) as (o & E & F & I). unfold start_can. rewrite E. unfold locate. rewrite I.
  destruct (_ <? 16); eauto.
Qed.
Lemma can_long_thm : forall perm ps t n, Forall (cproper perm) ps -> In n (names_in ps) -> 64 <= lenN n ->
  start_can perm (cwords ps ++ t) = Undefined.
Proof.
  intros perm ps t n P I L. unfold start_can, parse_can. rewrite cgetopt_parts by exact P. rewrite can_parts.
  match goal with |- context [existsb ?f ?x] => assert (E : existsb f x = true) by (apply existsb_exists; exists n; split; [exact I|lia]) end. now rewrite E.
Qed.

Lemma cunknown_bad : forall c, ~ In c [ch "f"; ch "i"] -> known can_os c = None \/ c = ch "h".
Proof.
  intros c N. destruct (N.eq_dec c (ch "h")) as [->|H]; [now right|left].
  assert (Q : c <> ch "f" /\ c <> ch "i") by (cbn [In] in N; intuition). destruct Q as (Q1 & Q2).
  unfold can_os. change (chars "hi:f") with [ch "h"; ch "i"; ch ":"; ch "f"]. cbn [known].
  repeat match goal with |- context [?a =? c] => destruct (N.eqb_spec a c); [subst; try congruence|] end; cbn [andb]; try reflexivity.
Qed.
Lemma can_help_thm : forall perm ps w t, Forall (cproper perm) ps -> Forall (fun n => lenN n < 64) (names_in ps) -> casks_help w t ->
  start_can perm (cwords ps ++ w :: t) = Exit 0.
Proof.
  intros perm ps w t P L A. unfold start_can, parse_can. rewrite cgetopt_parts by exact P. rewrite can_parts, no_long by exact L.
  destruct A as [(c & r & -> & D & N)|(-> & ->)].
  - rewrite getopt_dash.
    + cbn [cluster]. apply cunknown_bad in N. destruct N as [N| ->]; [rewrite N|change (known can_os (ch "h")) with (Some false)]; destruct (cluster can_os r); reflexivity.
    + destruct (N.eqb_spec c (ch "-")) as [->|]; [right|now left]. intros ->. now apply D.
  - reflexivity.
Qed.

(** ** C116 *)

Definition sw (c : N) (w : word) : bool :=
  match w with d :: x :: _ => ((d =? ch "/") || (d =? ch "-")) && (x =? c) | _ => false end.
Lemma sw_iff : forall c w, sw c w = true <-> switch c w.
Proof.
  intros c w. unfold switch. split.
  - destruct w as [|d [|x t]]; cbn [sw]; try discriminate. intro H. exists d, t.
    destruct (N.eqb_spec d (ch "/")); [|destruct (N.eqb_spec d (ch "-")); [|discriminate]]; cbn [orb andb] in H; apply N.eqb_eq in H; subst x; auto.
  - intros (d & t & -> & [-> | ->]); cbn [sw]; rewrite !N.eqb_refl, ?orb_true_r; reflexivity.
Qed.
Lemma win_one : forall o a, win_arg o a =
  (if sw (ch "6") a then true else if sw (ch "4") a then false else fst o,
   if sw (ch "u") a then false else if sw (ch "t") a then true else snd o).
Proof.
  intros [v p] a. unfold win_arg. destruct a as [|d [|c t]]; cbn [sw].
  - reflexivity.
  - destruct (_ || _); reflexivity.
  - destruct (_ || _); cbn [andb]; [|reflexivity].
    destruct (N.eqb_spec c (ch "4")) as [->|]; [reflexivity|]. destruct (N.eqb_spec c (ch "6")) as [->|]; [reflexivity|].
    destruct (N.eqb_spec c (ch "u")) as [->|]; [reflexivity|]. destruct (N.eqb_spec c (ch "t")) as [->|]; reflexivity.
Qed.
Lemma last_switch_snoc : forall a b l w, last_switch a b (l ++ [w]) <-> switch a w \/ (~ switch a w /\ ~ switch b w /\ last_switch a b l).
Proof.
  intros a b l w. split.
  - intros (x & y & r & E & S & N). destruct r as [|z r _] using rev_ind.
    + apply app_inj_tail in E. destruct E as (_ & ->). now left.
    + right. change (x ++ y :: r ++ [z]) with (x ++ (y :: r) ++ [z]) in E. rewrite app_assoc in E. apply app_inj_tail in E. destruct E as (-> & ->).
      destruct (N z ltac:(apply in_app_iff; right; now left)) as (N1 & N2). split; [exact N1|]. split; [exact N2|].
      exists x, y, r. split; [reflexivity|]. split; [exact S|]. intros q Q. apply N. apply in_app_iff. now left.
  - intros [S|(N1 & N2 & x & y & r & -> & S & N)].
    + exists l, w, []. split; [reflexivity|]. split; [exact S|]. intros q [].
    + exists x, y, (r ++ [w]). split; [now rewrite <- app_assoc|]. split; [exact S|]. intros q Q. apply in_app_iff in Q. destruct Q as [Q|[<-|[]]]; auto.
Qed.
Lemma last_switch_nil : forall a b, ~ last_switch a b []. Proof. intros a b (x & y & r & E & _). destruct x; discriminate. Qed.
Lemma sw_no : forall c w, sw c w = false -> ~ switch c w. Proof. intros c w H S. apply sw_iff in S. congruence. Qed.
Lemma sw_two : forall a b w, a <> b -> switch a w -> ~ switch b w.
Proof. intros a b w N (d & t & E & _) (d' & t' & E' & _). rewrite E in E'. injection E' as _ Q _. contradiction. Qed.
Lemma win_thm : forall args, (en_ipv6 (parse_win args) = true <-> last_switch (ch "6") (ch "4") args) /\
  (en_tcp (parse_win args) = false <-> last_switch (ch "u") (ch "t") args).
Proof.
  intro args. unfold parse_win. cbn [en_ipv6 en_tcp].
  induction args as [|w l IH] using rev_ind.
  - cbn [fold_left fst snd]. split; (split; [discriminate|intro H; exfalso; eapply last_switch_nil; exact H]).
  - rewrite fold_left_app. cbn [fold_left]. rewrite win_one. cbn [fst snd]. rewrite !last_switch_snoc. destruct IH as (I1 & I2). rewrite <- I1, <- I2. split.
    + destruct (sw (ch "6") w) eqn:A; [apply sw_iff in A; tauto|]. apply sw_no in A. destruct (sw (ch "4") w) eqn:B.
      * apply sw_iff in B. split; [discriminate|tauto].
      * apply sw_no in B. tauto.
    + destruct (sw (ch "u") w) eqn:A; [apply sw_iff in A; tauto|]. apply sw_no in A. destruct (sw (ch "t") w) eqn:B.
      * apply sw_iff in B. split; [discriminate|tauto].
      * apply sw_no in B. tauto.
Qed.
Lemma win_port_thm : forall ps n, In n (ports_in ps) -> value n <> 5555 -> en_port (parse_win (words ps)) <> value n.
Proof. intros ps n _ N E. apply N. symmetry. exact E. Qed.
Lemma win_cluster_thm : forall l r f fs, parse_win (l ++ (ch "-" :: map letter (f :: fs)) :: r) = parse_win (l ++ [ch "-"; letter f] :: r).
Proof. intros l r f fs. unfold parse_win. rewrite !fold_left_app. cbn [fold_left]. destruct f; reflexivity. Qed.
