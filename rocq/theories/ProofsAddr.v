From Coq Require Import NArith ZArith List Bool Lia ZifyBool ZifyNat ZifyN.
From Verif Require Import Base Config Codec State Core Lists Net Addr SpecAddr.
Import ListNotations.
Open Scope N_scope.

Definition valid (p : peer) : Prop := is_v4 p \/ is_v6 p.
Definition padded (p : peer) : list N := splice no_addr 0 (sockaddr p).
Definition good (img : peer -> peer) (Q : peer -> Prop) (a : list N) : Prop := a = no_addr \/ exists q, Q q /\ a = padded (img q).

Ltac lens := repeat match goal with H : lenN ?l = _ |- _ => first [is_var l; let n := fresh in pose proof H as n; unfold lenN in n;
  repeat (destruct l as [|? l]; cbn [length] in n; try lia); clear n H] end.

Lemma recipient_padded : forall p, valid p -> recipient (padded p) = Some p.
Proof.
  intros p [(pt & a & -> & L1 & L2)|(pt & fl & a & sc & -> & L1 & L2 & L3 & L4)]; lens; reflexivity.
Qed.

Section Image.
  Context (ptr : N) (img : peer -> peer) (Q : peer -> Prop) (G : N * N -> Prop).
  Context (valid_img : forall q, Q q -> valid (img q)).
  Context (twice : forall a p h, good img Q a -> Q p -> G h -> recv_addr ptr (snd h) (recv_addr ptr (fst h) a p) p = padded (img p)).

  Definition holds (A : N -> peer) (i : N) (a : list N) : Prop := a = if i =? 0 then no_addr else padded (img (A i)).
  Lemma holds_good : forall A i a, (forall p, Q (A p)) -> holds A i a -> good img Q a.
  Proof. intros A i a HA H. unfold holds in H. destruct (i =? 0); [now left|right; eauto]. Qed.
  Lemma holds_recipient : forall A i a, (forall p, Q (A p)) -> holds A i a -> recipient a = if i =? 0 then None else Some (img (A i)).
  Proof. intros A i a HA ->. destruct (i =? 0); [reflexivity|]. apply recipient_padded. auto. Qed.

  Lemma net_out : forall c ev n n1 o, net_step c true ev n = Ok (n1, o) -> exists q, o = map (fun p => (t_conn n1, p)) q.
  Proof.
    intros c ev n n1 o H. destruct ev as [e p f|p| |e x]; cbn [net_step orb] in H.
    - destruct (receive c e f (t_st n)) as [(s & q)|w]; cbn [bind] in H; [|discriminate]. injection H as <- <-. exists q. reflexivity.
    - injection H as <- <-. now exists [].
    - injection H as <- <-. now exists [].
    - destruct (step c e x (t_st n)) as [(s & q)|w]; cbn [bind] in H; [|discriminate]. injection H as <- <-. exists q. reflexivity.
  Qed.
  Lemma image_step : forall c A h ev n cur conn, (forall p, Q (A p)) -> G h -> known ev -> holds A (t_cur n) cur -> holds A (t_conn n) conn ->
    match net_step c true ev n with
    | Ok (n1, o) => exists cur1 conn1, addr_step c ptr A h ev (n, cur, conn) = Ok (n1, cur1, conn1, map (to (fun i => img (A i))) o) /\ holds A (t_cur n1) cur1 /\ holds A (t_conn n1) conn1
    | UB w => addr_step c ptr A h ev (n, cur, conn) = UB w
    end.
  Proof.
    intros c A h ev n cur conn HA Hh Hk Hc Hn. unfold addr_step.
    destruct (net_step c true ev n) as [(n1 & o)|w] eqn:E; [|reflexivity]. cbn [bind].
    destruct (net_out c ev n n1 o E) as (q & Eo).
    match goal with |- exists _ _, Ok (_, ?a, ?b, _) = _ /\ _ => assert (K : holds A (t_cur n1) a /\ holds A (t_conn n1) b) end.
    { destruct ev as [e p f|p| |e x]; cbn [net_step orb] in E.
      - destruct (receive c e f (t_st n)) as [(s & q')|w]; cbn [bind] in E; [|discriminate]. injection E as <- _.
        assert (T : holds A p (recv_addr ptr (snd h) (recv_addr ptr (fst h) cur (A p)) (A p))).
        { unfold holds. cbn in Hk. replace (p =? 0) with false by lia. apply twice; auto. eapply holds_good; eauto. }
        cbn [t_cur t_conn]. destruct (saves (t_st n) f); [cbn [t_cur t_conn]; auto|].
        destruct (negb (lenN f =? 0) && releases c e (t_st n) (splice (s_in (t_st n)) 0 f)); cbn [t_cur t_conn]; auto.
      - injection E as <- _. auto.
      - injection E as <- _. auto.
      - destruct (step c e x (t_st n)) as [(s & q')|w]; cbn [bind] in E; [|discriminate]. injection E as <- _.
        destruct x; cbn [t_cur t_conn]; auto; split; reflexivity. }
    destruct K as (K1 & K2). eexists _, _. split; [|split; [exact K1|exact K2]]. do 2 f_equal. subst o. rewrite !map_map. apply map_ext. intros y.
    unfold to. cbn [fst snd]. now rewrite (holds_recipient A _ _ HA K2).
  Qed.
  Lemma image_run : forall c A H l k n cur conn, (forall p, Q (A p)) -> (forall i, G (H i)) -> Forall known l -> holds A (t_cur n) cur -> holds A (t_conn n) conn ->
    posted (addr_run c ptr A H k l (n, cur, conn)) = ('(n1, o) <- net_run c true l n ;; Ok (n1, map (to (fun i => img (A i))) o)).
  Proof.
    intros c A H. induction l as [|ev l IH]; intros k n cur conn HA HG F Hc Hn; [reflexivity|]. inversion F as [|? ? F1 F2]; subst. cbn [addr_run net_run].
    pose proof (image_step c A (H k) ev n cur conn HA (HG k) F1 Hc Hn) as S.
    destruct (net_step c true ev n) as [(n1 & o1)|w]; [|rewrite S; reflexivity]. destruct S as (cur1 & conn1 & -> & S1 & S2). cbn [bind].
    specialize (IH (k + 1) n1 cur1 conn1 HA HG F2 S1 S2).
    destruct (addr_run _ _ _ _ _ _ _) as [(((n2 & a2) & b2) & o2)|w]; destruct (net_run _ _ _ _) as [(n3 & o3)|w3]; cbn [posted bind] in *; try discriminate; [|congruence].
    injection IH as -> ->. now rewrite map_app.
  Qed.
End Image.

Lemma boot_run : forall ptr (img : peer -> peer) (Q : peer -> Prop) (G : N * N -> Prop), (forall q, Q q -> valid (img q)) ->
  (forall a p h, good img Q a -> Q p -> G h -> recv_addr ptr (snd h) (recv_addr ptr (fst h) a p) p = padded (img p)) ->
  forall c A H l n, (forall p, Q (A p)) -> (forall i, G (H i)) -> Forall known l -> t_cur n = 0 -> t_conn n = 0 ->
  posted (addr_run c ptr A H 0 l (n, no_addr, no_addr)) = ('(n1, o) <- net_run c true l n ;; Ok (n1, map (to (fun i => img (A i))) o)).
Proof.
  intros ptr img Q G V T c A H l n HA HG F Z1 Z2. apply (image_run ptr img Q G); auto; unfold holds; [now rewrite Z1|now rewrite Z2].
Qed.

(** ** The cases *)
Lemma recv_long : forall ptr h a p, 1 <= h -> h < 0x8000 -> valid p -> recv_addr ptr h a p = splice a 0 (sockaddr p).
Proof.
  intros ptr h a p H1 H2 V. unfold recv_addr. replace (0x8000 <=? h) with false by lia. rewrite take_all; [reflexivity|].
  assert (lenN (sockaddr p) <= 28); [|lia]. destruct V as [(pt & ad & -> & L1 & L2)|(pt & fl & ad & sc & -> & L1 & L2 & L3 & L4)]; lens; vm_compute; congruence.
Qed.

(** Addresses of which only the first [m] bytes are used. *)
Definition short (m : nat) (a : list N) : Prop := exists w, length w = m /\ a = w ++ repeat 0 (128 - m).
Lemma good_short : forall m (img : peer -> peer) (Q : peer -> Prop), (m <= 128)%nat -> (forall q, Q q -> short m (padded (img q))) -> forall a, good img Q a -> short m a.
Proof.
  intros m img Q M I a [->|(q & Hq & ->)]; [|auto]. exists (repeat 0 m). split; [apply repeat_length|]. unfold no_addr. rewrite <- repeat_app. f_equal. lia.
Qed.
Ltac open_list w := repeat (destruct w as [|? w]; cbn [length] in *; try lia).
Ltac short_case := intros; repeat match goal with H : is_v4 _ |- _ => destruct H as (? & ? & -> & ? & ?) | H : is_v6 _ |- _ => destruct H as (? & ? & ? & ? & -> & ? & ? & ? & ?)
  | H : short _ _ |- _ => destruct H as (?w & ? & ->) end; lens; repeat match goal with H : length ?w = _ |- _ => open_list w; clear H end.

Lemma v4_long : forall h a p, h < 0x8000 -> short 8 a -> is_v4 p -> recv_addr 8 h a p = padded p.
Proof.
  intros h a p Hh S V. destruct (N.eq_dec h 0) as [->|Z]; [short_case; reflexivity|]. rewrite recv_long by (auto; try lia; now left). short_case. reflexivity.
Qed.
Lemma v6_long : forall ptr h a p, 1 <= h -> h < 0x8000 -> short 28 a -> is_v6 p -> recv_addr ptr h a p = padded p.
Proof. intros ptr h a p H1 H2 S V. rewrite recv_long by (auto; now right). short_case. reflexivity. Qed.
Lemma any_4 : forall a p, short 4 a -> valid p -> recv_addr 4 0 a p = padded (nowhere p).
Proof. intros a p S [V|V]; short_case; reflexivity. Qed.
Lemma v6_8 : forall a p, short 8 a -> is_v6 p -> recv_addr 8 0 a p = padded (nowhere_flow p).
Proof. short_case. reflexivity. Qed.

Lemma short_v4 : forall p, is_v4 p -> short 8 (padded p).
Proof. intros p (pt & ad & -> & L1 & L2). exists ([2; 0] ++ pt ++ ad). lens. split; reflexivity. Qed.
Lemma short_v6 : forall p, is_v6 p -> short 28 (padded p).
Proof. intros p (pt & fl & ad & sc & -> & L1 & L2 & L3 & L4). exists ([10; 0] ++ pt ++ fl ++ ad ++ sc). lens. split; reflexivity. Qed.
Lemma short_no : forall p, valid p -> short 4 (padded (nowhere p)).
Proof.
  intros p [(pt & ad & -> & L1 & L2)|(pt & fl & ad & sc & -> & L1 & L2 & L3 & L4)]; [exists ([2; 0] ++ pt)|exists ([10; 0] ++ pt)]; lens; split; reflexivity.
Qed.
Lemma short_flow : forall p, is_v6 p -> short 8 (padded (nowhere_flow p)).
Proof. intros p (pt & fl & ad & sc & -> & L1 & L2 & L3 & L4). exists ([10; 0] ++ pt ++ fl). lens. split; reflexivity. Qed.
Lemma valid_no : forall p, valid p -> valid (nowhere p).
Proof.
  intros p [(pt & ad & -> & L1 & L2)|(pt & fl & ad & sc & -> & L1 & L2 & L3 & L4)]; [left|right]; cbn [nowhere]; [unfold is_v4; eauto|].
  exists pt, (repeat 0 4), (repeat 0 16), (repeat 0 4). repeat split; auto.
Qed.
Lemma valid_flow : forall p, is_v6 p -> valid (nowhere_flow p).
Proof. intros p (pt & fl & ad & sc & -> & L1 & L2 & L3 & L4). right. exists pt, fl, (repeat 0 16), (repeat 0 4). repeat split; auto. Qed.

Lemma v4_thm : forall c A H l n, (forall i, is_v4 (A i)) -> (forall k, fst (H k) < 0x8000 /\ snd (H k) < 0x8000) -> Forall known l -> t_cur n = 0 -> t_conn n = 0 ->
  posted (addr_run c 8 A H 0 l (n, no_addr, no_addr)) = ('(n1, o) <- net_run c true l n ;; Ok (n1, map (to A) o)).
Proof.
  intros c A H l n HA HH F Z1 Z2. apply (boot_run 8 (fun q => q) is_v4 (fun h => fst h < 0x8000 /\ snd h < 0x8000)); auto.
  - intros q Hq. now left.
  - intros a p h Ga Hp (H1 & H2). rewrite (v4_long (fst h)); auto.
    + apply v4_long; auto. now apply short_v4.
    + eapply (good_short 8 (fun q => q) is_v4); [lia|exact short_v4|exact Ga].
Qed.
Lemma v6_thm : forall c ptr A H l n, (forall i, is_v6 (A i)) -> (forall k, 1 <= fst (H k) < 0x8000 /\ 1 <= snd (H k) < 0x8000) -> Forall known l -> t_cur n = 0 -> t_conn n = 0 ->
  posted (addr_run c ptr A H 0 l (n, no_addr, no_addr)) = ('(n1, o) <- net_run c true l n ;; Ok (n1, map (to A) o)).
Proof.
  intros c ptr A H l n HA HH F Z1 Z2. apply (boot_run ptr (fun q => q) is_v6 (fun h => 1 <= fst h < 0x8000 /\ 1 <= snd h < 0x8000)); auto.
  - intros q Hq. now right.
  - intros a p h Ga Hp ((H1 & H1') & (H2 & H2')). rewrite (v6_long ptr (fst h)); auto.
    + apply v6_long; auto. now apply short_v6.
    + eapply (good_short 28 (fun q => q) is_v6); [lia|exact short_v6|exact Ga].
Qed.
Lemma v6_wrong : forall c A H l n, (forall i, is_v6 (A i)) -> (forall k, H k = (0, 0)) -> Forall known l -> t_cur n = 0 -> t_conn n = 0 ->
  posted (addr_run c 8 A H 0 l (n, no_addr, no_addr)) = ('(n1, o) <- net_run c true l n ;; Ok (n1, map (to (fun i => nowhere_flow (A i))) o)).
Proof.
  intros c A H l n HA HH F Z1 Z2. apply (boot_run 8 nowhere_flow is_v6 (fun h => h = (0, 0))); auto.
  - exact valid_flow.
  - intros a p h Ga Hp ->. cbn [fst snd]. rewrite (v6_8 a p); auto.
    + apply v6_8; auto. now apply short_flow.
    + eapply (good_short 8 nowhere_flow is_v6); [lia|exact short_flow|exact Ga].
Qed.
Lemma four_wrong : forall c A H l n, (forall i, is_v4 (A i) \/ is_v6 (A i)) -> (forall k, H k = (0, 0)) -> Forall known l -> t_cur n = 0 -> t_conn n = 0 ->
  posted (addr_run c 4 A H 0 l (n, no_addr, no_addr)) = ('(n1, o) <- net_run c true l n ;; Ok (n1, map (to (fun i => nowhere (A i))) o)).
Proof.
  intros c A H l n HA HH F Z1 Z2. apply (boot_run 4 nowhere valid (fun h => h = (0, 0))); auto.
  - exact valid_no.
  - intros a p h Ga Hp ->. cbn [fst snd]. rewrite (any_4 a p); auto.
    + apply any_4; auto. now apply short_no.
    + eapply (good_short 4 nowhere valid); [lia|exact short_no|exact Ga].
Qed.

Lemma nobody : forall (g : peer -> peer) A (o : list (N * pkt)) q y i, (forall p, Forall (fun b => b = 0) (host (g p))) ->
  In (Some q, y) (map (to (fun i => g (A i))) o) -> somewhere (A i) -> q <> A i.
Proof.
  intros g A o q y i Hg H S E. apply in_map_iff in H. destruct H as ((j & z) & H & _). unfold to in H. cbn [fst snd] in H.
  destruct (j =? 0); [discriminate|]. injection H as <- _. rewrite <- E in S. unfold somewhere in S. specialize (Hg (A j)).
  apply Exists_exists in S. destruct S as (b & I & N). rewrite Forall_forall in Hg. auto.
Qed.
Lemma nobody_thm : forall c ptr A H l n n1 a b o, ptr = 4 \/ ptr = 8 -> (forall i, is_v6 (A i)) -> (forall k, H k = (0, 0)) -> Forall known l -> t_cur n = 0 -> t_conn n = 0 ->
  addr_run c ptr A H 0 l (n, no_addr, no_addr) = Ok (n1, a, b, o) -> forall q y i, In (Some q, y) o -> somewhere (A i) -> q <> A i.
Proof.
  intros c ptr A H l n n1 a b o P HA HH F Z1 Z2 R q y i I S.
  assert (Hno : exists g, (forall p, Forall (fun b => b = 0) (host (g p))) /\ posted (addr_run c ptr A H 0 l (n, no_addr, no_addr)) = ('(n1, o) <- net_run c true l n ;; Ok (n1, map (to (fun i => g (A i))) o))).
  { destruct P as [-> | ->].
    - exists nowhere. split; [intros [pt ad|pt fl ad sc]; cbn; repeat constructor|]. apply four_wrong; auto.
    - exists nowhere_flow. split; [intros [pt ad|pt fl ad sc]; cbn; repeat constructor|]. now apply v6_wrong. }
  destruct Hno as (g & Hg & E). rewrite R in E. cbn [posted bind] in E. destruct (net_run c true l n) as [(n2 & o2)|w]; cbn [bind] in E; [|discriminate].
  injection E as _ ->. eapply nobody; eauto.
Qed.
