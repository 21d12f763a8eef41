From Coq Require Import NArith ZArith List Bool Lia ZifyBool ZifyNat ZifyN.
From Verif Require Import Base Config Codec State Core Spec Lists SpecFrames Eth SpecSxi SpecEth ProofsEth Net Tcp SpecTcp ProofsTcp Live SpecLive ProofsLive Can CanBus Signals.
Import ListNotations.
Open Scope N_scope.

(** ** Silence *)
Definition behind (i : N) : N := (256 - i) mod 256.
Lemma header_idle : forall j i fuel d hb tl, i + N.of_nat j <= 251 ->
  read_header (j + fuel) d hb (4 + i) (behind i) (repeat Failed j ++ tl) = read_header fuel d hb (4 + (i + N.of_nat j)) (behind (i + N.of_nat j)) tl.
Proof.
  induction j as [|j IH]; intros i fuel d hb tl H; [cbn; now rewrite N.add_0_r|].
  cbn [Nat.add repeat app read_header recv].
  assert (A : u8 (4 + i + (256 - 255)) = 4 + (i + 1)).
  { unfold u8. change (2 ^ 8) with 256. change (256 - 255) with 1. rewrite N.mod_small; lia. }
  assert (B : u8 (behind i + 255) = behind (i + 1)).
  { unfold u8, behind. change (2 ^ 8) with 256. rewrite N.add_mod_idemp_l by lia.
    replace (256 - i + 255) with (256 - (i + 1) + 1 * 256) by lia. now rewrite N.mod_add by lia. }
  rewrite A, B. replace (4 + (i + 1) =? 0) with false by lia. rewrite IH by lia.
  replace (i + 1 + N.of_nat j) with (i + N.of_nat (S j)) by lia. reflexivity.
Qed.
Lemma weight_app : forall a b, weight (a ++ b) = (weight a + weight b)%nat.
Proof. induction a as [|[bs| |] a IH]; intros b; cbn [app weight]; [reflexivity|rewrite IH; lia|rewrite IH; lia|rewrite IH; lia]. Qed.
Lemma weight_failed : forall j, weight (repeat Failed j) = j.
Proof. induction j as [|j IH]; cbn; congruence. Qed.

Lemma header_woken : forall j d bs ps, (1 <= j <= 248)%nat -> bs <> [] ->
  read_header (S (weight (repeat Failed j ++ Data bs :: ps))) d (repeat None 8) 4 0 (repeat Failed j ++ Data bs :: ps) = UB OobBuffer.
Proof.
  intros j d bs ps J B. apply lenN_pos in B. rewrite weight_app, weight_failed, plus_n_Sm.
  change 4 with (4 + 0) at 1. change 0 with (behind 0) at 2. rewrite header_idle by lia. rewrite N.add_0_l.
  cbn [weight read_header recv]. replace (4 + N.of_nat j =? 0) with false by lia. replace (lenN bs =? 0) with false by lia.
  unfold store. rewrite lenN_map, lenN_take. change (lenN (repeat None 8)) with 8.
  unfold behind. rewrite N.mod_small by lia. replace (8 <? _) with true by lia. reflexivity.
Qed.
Lemma header_long : forall j d tl, (252 <= j)%nat ->
  read_header (S (weight (repeat Failed j ++ tl))) d (repeat None 8) 4 0 (repeat Failed j ++ tl) = UB Uninit.
Proof.
  intros j d tl J. rewrite weight_app, weight_failed. replace j with (251 + S (j - 252))%nat by lia. rewrite repeat_app, <- app_assoc.
  replace (S (251 + S (j - 252) + weight tl)) with (251 + S (S (j - 252 + weight tl)))%nat by lia.
  change 4 with (4 + 0) at 1. change 0 with (behind 0) at 2. rewrite header_idle by lia. reflexivity.
Qed.
Lemma rx_first : forall k d cbuf rx ps w, read_header (S (weight ps)) d (repeat None 8) 4 0 ps = UB w -> rx_loop (S k) d cbuf rx ps = UB w.
Proof. intros k d cbuf rx ps w H. cbn [rx_loop]. rewrite H. reflexivity. Qed.

Lemma idle_any : forall d blen cbuf j tl, ((1 <= j <= 248)%nat -> forall bs ps, bs <> [] -> tl = Data bs :: ps -> rx_handler d blen cbuf (repeat Failed j ++ tl) = UB OobBuffer) /\
  ((252 <= j)%nat -> rx_handler d blen cbuf (repeat Failed j ++ tl) = UB Uninit).
Proof.
  intros d blen cbuf j tl. split.
  - intros J bs ps B ->. apply rx_first. now apply header_woken.
  - intros J. apply rx_first. now apply header_long.
Qed.

Lemma after_frames : forall blen cbuf fs cs tl w, blen < 65536 -> Forall (sendable blen cbuf) fs -> portions cs -> concat cs = wires fs -> headers_whole fs cs ->
  read_header (S (weight tl)) false (repeat None 8) 4 0 tl = UB w -> rx_handler false blen cbuf (map Data cs ++ tl) = UB w.
Proof.
  intros blen cbuf fs cs tl w B S P E W H. unfold rx_handler.
  destruct (rx_prefix fs [] cs (Datatypes.S (weight (map Data cs ++ tl))) (repeat 0 (N.to_nat blen)) tl blen cbuf B ltac:(rewrite lenN_repeat; lia) S P ltac:(now rewrite app_nil_r) W ltac:(lia))
    as (ds & rx1 & k & X1 & X2 & X3 & X4 & _ & ->).
  destruct ds as [|d ds]; [|exfalso; cbn in X4; apply app_eq_nil in X4; destruct X4; inversion X3; contradiction].
  destruct k as [|k]; [lia|]. cbn [map app]. rewrite (rx_first k false cbuf rx1 tl w H). reflexivity.
Qed.
Lemma idle_thm : forall blen cbuf fs cs j, blen < 65536 -> Forall (sendable blen cbuf) fs -> portions cs -> concat cs = wires fs -> headers_whole fs cs ->
  ((1 <= j <= 248)%nat -> forall bs ps, bs <> [] -> rx_handler false blen cbuf (map Data cs ++ repeat Failed j ++ Data bs :: ps) = UB OobBuffer) /\
  ((252 <= j)%nat -> forall ps, rx_handler false blen cbuf (map Data cs ++ repeat Failed j ++ ps) = UB Uninit).
Proof.
  intros blen cbuf fs cs j B S P E W. split.
  - intros J bs ps Bs. apply (after_frames blen cbuf fs); auto. now apply header_woken.
  - intros J ps. apply (after_frames blen cbuf fs); auto. now apply header_long.
Qed.

(** ** Inside of the contents *)
Lemma header_then : forall n k0 k1 p tl fuel, n < 65536 ->
  read_header (S fuel) false (repeat None 8) 4 0 (Data (n mod 256 :: n / 256 :: k0 :: k1 :: p) :: tl) = Ok (Got n, if lenN p =? 0 then tl else Data p :: tl).
Proof.
  intros n k0 k1 p tl fuel L.
  pose proof (header_ok (n mod 256 :: n / 256 :: k0 :: k1 :: p) [] fuel tl) as H. cbn [map app] in H. rewrite H; [|unfold lenN; cbn [length]; lia|constructor].
  cbn [nth]. rewrite lor_word' by (apply N.mod_lt; lia). replace (n mod 256 + 256 * (n / 256)) with n by lia.
  cbn [adv]. replace (lenN (n mod 256 :: n / 256 :: k0 :: k1 :: p)) with (4 + lenN p) by (unfold lenN; cbn [length]; lia).
  destruct (lenN p =? 0) eqn:Z.
  - replace (4 + lenN p <=? 4) with true by lia. reflexivity.
  - replace (4 + lenN p <=? 4) with false by lia. reflexivity.
Qed.
Lemma contents_none : forall blen cbuf fs cs g bs ps, blen < 65535 -> Forall (sendable blen cbuf) fs -> sendable blen cbuf g -> portions cs -> concat cs = wires fs -> headers_whole fs cs -> bs <> [] ->
  rx_handler false blen cbuf (map Data cs ++ Data (takeN 4 (wire g)) :: Failed :: Data bs :: ps) = UB OobBuffer.
Proof.
  intros blen cbuf fs cs g bs ps B S (G1 & G2 & G3) P E W Bs. unfold rx_handler. set (tl := Data _ :: _).
  destruct (rx_prefix fs [] cs (Datatypes.S (weight (map Data cs ++ tl))) (repeat 0 (N.to_nat blen)) tl blen cbuf ltac:(lia) ltac:(rewrite lenN_repeat; lia) S P ltac:(now rewrite app_nil_r) W ltac:(lia))
    as (ds & rx1 & k & X1 & X2 & X3 & X4 & _ & ->).
  destruct ds as [|d ds]; [|exfalso; cbn in X4; apply app_eq_nil in X4; destruct X4; inversion X3; contradiction].
  destruct k as [|k]; [lia|]. cbn [map app]. cbn [rx_loop]. unfold tl at 2. 
  change (takeN 4 (wire g)) with (lenN (f_data g) mod 256 :: lenN (f_data g) / 256 :: f_ctr0 g :: f_ctr1 g :: []). rewrite header_then by lia.
  change (lenN (@nil N) =? 0) with true. cbv iota. cbn [bind weight read_data recv]. apply lenN_pos in Bs.
  assert (A : u16 (lenN (f_data g) + (65536 - 65535)) = lenN (f_data g) + 1).
  { unfold u16. change (2 ^ 16) with 65536. change (65536 - 65535) with 1. rewrite N.mod_small; lia. }
  rewrite A. replace (lenN (f_data g) + 1 =? 0) with false by lia. replace (lenN bs =? 0) with false by lia. change (u16 (0 + 65535)) with 65535.
  unfold store. rewrite lenN_take. replace (lenN rx1 <? _) with true by lia. reflexivity.
Qed.

Lemma contents_some : forall blen cbuf g p q x y ps ms e r, blen < 65535 -> sendable blen cbuf g -> f_data g = p ++ q -> p <> [] -> q <> [] ->
  rx_handler false blen cbuf (Data (takeN 4 (wire g) ++ p) :: Failed :: Data (q ++ x :: y) :: ps) = Ok (ms, e, r) ->
  exists more, ms = (removelast p ++ q ++ [x]) :: more.
Proof.
  intros blen cbuf g p q x y ps ms e r B (G1 & G2 & G3) D Hp Hq H. unfold rx_handler in H. cbn [rx_loop] in H.
  change (takeN 4 (wire g) ++ p) with (lenN (f_data g) mod 256 :: lenN (f_data g) / 256 :: f_ctr0 g :: f_ctr1 g :: p) in H.
  rewrite header_then in H by lia. apply lenN_pos in Hp. apply lenN_pos in Hq.
  assert (Ln : lenN (f_data g) = lenN p + lenN q) by (rewrite D; apply lenN_app).
  replace (lenN p =? 0) with false in H by lia. cbn [bind weight] in H.
  remember (repeat 0 (N.to_nat blen)) as rx eqn:Erx. assert (Lrx : lenN rx = blen) by (subst rx; rewrite lenN_repeat; lia). clear Erx.
  remember (lenN (f_data g)) as n eqn:En. clear En.
  match type of H with context [read_data ?F _ _ _ _ _] => remember F as fu eqn:Efu end.
  assert (Hfu : exists f', fu = S (S (S f'))) by (exists (fu - 3)%nat; rewrite Efu; cbn [weight]; lia). destruct Hfu as (f' & ->). clear Efu.
  assert (RD : read_data (S (S (S f'))) false rx n 0 (Data p :: Failed :: Data (q ++ x :: y) :: ps) =
    Ok (Got tt, splice (splice rx 0 p) (lenN p - 1) (q ++ [x]), if lenN y =? 0 then ps else Data y :: ps)).
  { cbn [read_data recv]. replace (n =? 0) with false by lia. replace (lenN p =? 0) with false by lia. cbn [orb].
    rewrite take_all by lia. replace (lenN p <=? n) with true by lia. unfold store at 1. replace (lenN rx <? 0 + lenN p) with false by lia. cbn [bind].
    assert (A : u16 (n + (65536 - lenN p)) = lenN q).
    { unfold u16. change (2 ^ 16) with 65536. replace (n + (65536 - lenN p)) with (lenN q + 1 * 65536) by lia. rewrite N.mod_add by lia. apply N.mod_small. lia. }
    rewrite A. replace (lenN q =? 0) with false by lia. cbn [recv].
    assert (A2 : u16 (lenN q + (65536 - 65535)) = lenN q + 1).
    { unfold u16. change (2 ^ 16) with 65536. change (65536 - 65535) with 1. apply N.mod_small. lia. }
    rewrite A2. replace (lenN q + 1 =? 0) with false by lia. cbn [recv]. replace (lenN q + 1 =? 0) with false by lia. cbn [orb].
    assert (A3 : u16 (u16 (0 + lenN p) + 65535) = lenN p - 1).
    { unfold u16. change (2 ^ 16) with 65536. rewrite N.add_0_l, (N.mod_small (lenN p)) by lia. replace (lenN p + 65535) with (lenN p - 1 + 1 * 65536) by lia. rewrite N.mod_add by lia. apply N.mod_small. lia. }
    rewrite A3. replace (q ++ x :: y) with ((q ++ [x]) ++ y) by (now rewrite <- app_assoc).
    assert (Lx : lenN (q ++ [x]) = lenN q + 1) by (rewrite lenN_app; reflexivity).
    replace (lenN ((q ++ [x]) ++ y) =? 0) with false by (rewrite lenN_app; lia).
    rewrite <- Lx, take_app. unfold store. rewrite lenN_splice by lia. replace (lenN rx <? lenN p - 1 + lenN (q ++ [x])) with false by lia. cbn [bind].
    replace (u16 (lenN (q ++ [x]) + (65536 - lenN (q ++ [x])))) with 0 by (unfold u16; change (2 ^ 16) with 65536; replace (lenN (q ++ [x]) + (65536 - lenN (q ++ [x]))) with 65536 by lia; reflexivity).
    change (0 =? 0) with true. cbv iota. do 2 f_equal. rewrite lenN_app.
    destruct (lenN y =? 0) eqn:Z.
    - replace (lenN (q ++ [x]) + lenN y <=? lenN (q ++ [x])) with true by lia. reflexivity.
    - replace (lenN (q ++ [x]) + lenN y <=? lenN (q ++ [x])) with false by lia. rewrite drop_app. reflexivity. }
  rewrite RD in H. cbn [bind] in H. replace (cbuf <? n) with false in H by lia.
  destruct (rx_loop _ false cbuf _ _) as [((more & e1) & ps3)|w] in H; cbn [bind] in H; [|discriminate]. injection H as <- _ _. exists more. f_equal.
  assert (Lx : lenN (q ++ [x]) = lenN q + 1) by (rewrite lenN_app; reflexivity).
  unfold splice at 1. rewrite app_assoc, take_app_le by (rewrite lenN_app, lenN_take, lenN_splice; lia).
  rewrite take_all by (rewrite lenN_app, lenN_take, lenN_splice; lia).
  f_equal. unfold splice. cbn [app]. change (takeN 0 rx) with (@nil N). cbn [app]. rewrite take_app_le by lia.
  clear - Hp. destruct p as [|a p] using rev_ind; [cbn in Hp; lia|]. rewrite removelast_last, lenN_app. change (lenN [a]) with 1.
  rewrite N.add_sub. apply take_app.
Qed.

(** ** accept() *)
Lemma quiet_main : forall fuel c blen E k cur l n, sig_main fuel c blen E k cur (map Some l) n = tcp_main fuel c blen E k cur l n.
Proof.
  induction fuel as [|j IH]; intros c blen E k cur l n; [reflexivity|]. cbn [sig_main tcp_main].
  assert (A : forall cur l n,
    ('(fs, e, rest) <- rx_handler false blen (c_ctobuf c) (k_in cur) ;;
        '(n1, o1) <- deliver c E k (k_peer cur) fs n ;;
        match e with
        | Blocked => Ok (n1, o1)
        | Released => '(n2, _) <- net_step c false EEof n1 ;; ('(n3, o3) <- sig_main j c blen E (k + lenN fs) (mkConn (k_peer cur) rest) (map Some l) n2 ;; Ok (n3, o1 ++ o3))
        | EmptyData => '(n3, o3) <- sig_main j c blen E (k + lenN fs) (mkConn (k_peer cur) rest) (map Some l) n1 ;; Ok (n3, o1 ++ o3)
        end) =
    ('(fs, e, rest) <- rx_handler false blen (c_ctobuf c) (k_in cur) ;;
        '(n1, o1) <- deliver c E k (k_peer cur) fs n ;;
        match e with
        | Blocked => Ok (n1, o1)
        | Released => '(n2, _) <- net_step c false EEof n1 ;; ('(n3, o3) <- tcp_main j c blen E (k + lenN fs) (mkConn (k_peer cur) rest) l n2 ;; Ok (n3, o1 ++ o3))
        | EmptyData => '(n3, o3) <- tcp_main j c blen E (k + lenN fs) (mkConn (k_peer cur) rest) l n1 ;; Ok (n3, o1 ++ o3)
        end)).
  { clear cur l n. intros cur l n. destruct (rx_handler _ _ _ _) as [((fs & e) & rest)|w]; cbn [bind]; [|reflexivity].
    destruct (deliver _ _ _ _ _ _) as [(n1 & o1)|w]; cbn [bind]; [|reflexivity].
    destruct e; [reflexivity| |now rewrite IH]. destruct (net_step _ _ _ _) as [(n2 & o2)|w]; cbn [bind]; [|reflexivity]. now rewrite IH. }
  destruct (t_tl n); [apply A|]. destruct l as [|q l]; [reflexivity|]. cbn [map].
  destruct (net_step _ _ _ _) as [(n2 & o2)|w]; cbn [bind]; [|reflexivity]. apply A.
Qed.
Lemma quiet_thm : forall c blen E l n, sig_serve c blen E (map Some l) n = tcp_serve c blen E l n.
Proof.
  intros c blen E l n. unfold sig_serve, tcp_serve. rewrite quiet_main. f_equal. unfold sig_fuel, tcp_fuel. now rewrite map_length, map_map.
Qed.

Lemma rx_dead : forall blen cbuf, rx_handler false blen cbuf dead = UB Uninit.
Proof. intros. unfold rx_handler. cbn [rx_loop]. rewrite header_dead. reflexivity. Qed.
Lemma main_accept : forall c blen E, blen < 65536 -> forall vs qs, Forall2 (leaves blen (c_ctobuf c)) vs qs ->
  forall l fuel k cur n, (2 * length qs < fuel)%nat -> t_tl n = false ->
  seen (sig_main fuel c blen E k cur (map Some qs ++ None :: l) n) = ('(_, _) <- visits c E k vs (t_st n) ;; UB Uninit).
Proof.
  intros c blen E B vs qs F. induction F as [|v q vs qs Hq F IH]; intros l fuel k cur n Hf Ht.
  { destruct fuel as [|j]; [cbn in Hf; lia|]. cbn [map app sig_main]. rewrite Ht. cbn [k_in]. rewrite rx_dead. reflexivity. }
  destruct fuel as [|j]; [cbn in Hf; lia|]. cbn [map app sig_main]. rewrite Ht.
  assert (K : k_peer q = fst v /\ (rx_handler false blen (c_ctobuf c) (k_in q) = Ok (said v, Released, []) \/
                                  rx_handler false blen (c_ctobuf c) (k_in q) = Ok (said v, EmptyData, [Eof]))).
  { destruct Hq as [cs (C1 & C2 & C3 & C4)|cs (C1 & C2 & C3 & C4)|cs y C1 C2 C3 C4 C5|cs g i C1 C2 C3 C4 C5 C6 C7]; cbn [k_peer k_in]; (split; [reflexivity|]).
    - left. exact (proj2 (eth_frames _ _ _ _ B C1 C2 C3 C4)).
    - left. now apply rx_reset.
    - left. eapply rx_header; eauto.
    - right. eapply rx_data; eauto. }
  destruct K as (K & K'). rewrite K, accept_step by exact Ht. cbn [bind]. cbn [length] in Hf.
  pose proof (deliver_run c E (fst v) (said v) k (mkNet (t_st n) false (Some (fst v)) (fst v) (t_conn n)) eq_refl) as D. cbn [t_st] in D.
  cbn [visits]. destruct K' as [-> | ->]; cbn [bind]; (destruct (run c (commands E k (said v)) (t_st n)) as [(s' & o)|w]; cbn [bind]; [|rewrite D; reflexivity]);
    destruct D as (n' & -> & A & So); cbn [bind net_step].
  - set (n2 := mkNet _ _ _ _ _). specialize (IH l j (k + lenN (said v)) (mkConn (fst v) []) n2 ltac:(lia) eq_refl).
    rewrite <- A. change (t_st n') with (t_st n2). destruct (visits _ _ _ _ _) as [(s2 & o2)|w]; cbn [bind] in *;
    destruct (sig_main _ _ _ _ _ _ _ _) as [(n3 & o3)|w3]; cbn [seen bind] in *; try discriminate; congruence.
  - destruct (t_tl n') eqn:T.
    + destruct j as [|j]; [lia|]. cbn [sig_main]. rewrite T. cbn [k_peer k_in].
      change (rx_handler false blen (c_ctobuf c) [Eof]) with (Ok (@nil (list N), Released, @nil piece)). cbn [bind deliver net_step app].
      set (n2 := mkNet _ _ _ _ _). specialize (IH l j (k + lenN (said v)) (mkConn (fst v) []) n2 ltac:(lia) eq_refl).
      rewrite <- A. change (t_st n') with (t_st n2). change (lenN []) with 0. rewrite N.add_0_r.
      destruct (visits _ _ _ _ _) as [(s2 & o2)|w]; cbn [bind] in *;
      destruct (sig_main _ _ _ _ _ _ _ _) as [(n3 & o3)|w3]; cbn [seen bind] in *; try discriminate; congruence.
    + specialize (IH l j (k + lenN (said v)) (mkConn (fst v) [Eof]) n' ltac:(lia) T).
      rewrite <- A. destruct (visits _ _ _ _ _) as [(s2 & o2)|w]; cbn [bind] in *;
      destruct (sig_main _ _ _ _ _ _ _ _) as [(n3 & o3)|w3]; cbn [seen bind] in *; try discriminate; congruence.
Qed.
Lemma accept_thm : forall c blen E vs qs l n, blen < 65536 -> Forall2 (leaves blen (c_ctobuf c)) vs qs -> t_tl n = false ->
  seen (sig_serve c blen E (map Some qs ++ None :: l) n) = ('(_, _) <- visits c E 0 vs (t_st n) ;; UB Uninit).
Proof.
  intros c blen E vs qs l n B F T. unfold sig_serve. apply main_accept; auto.
  unfold sig_fuel. rewrite app_length, map_length, map_app, list_sum_app, map_map.
  assert (length qs <= list_sum (map (fun q => weight (k_in q)) qs))%nat; [|cbn [length]; lia].
  clear - F. induction F as [|v q vs qs H F IH]; [reflexivity|]. cbn [length map]. change (list_sum (?a :: ?l)) with (a + list_sum l)%nat. apply leaves_weight in H. lia.
Qed.

(** ** SocketCAN *)
Lemma can_quiet : forall c fd i b o l s, sock_sig_run c fd i b o (map (fun x => (fst x, Some (snd x))) l) s = sock_run c fd i b o l s.
Proof.
  intros c fd i b o. induction l as [|(e & ev) l IH]; intros s; [reflexivity|]. cbn [map fst snd sock_sig_run sock_run].
  destruct (sock_step _ _ _ _ _ _ _ _) as [(s1 & f1)|w]; cbn [bind]; [|reflexivity]. now rewrite IH.
Qed.
Lemma can_thm : forall c fd i b o l e t s, sock_sig_run c fd i b o (map (fun x => (fst x, Some (snd x))) l ++ (e, None) :: t) s = ('(_, _) <- sock_run c fd i b o l s ;; UB Exit).
Proof.
  intros c fd i b o. induction l as [|(e' & ev) l IH]; intros e t s; [reflexivity|]. cbn [map app fst snd sock_sig_run sock_run].
  destruct (sock_step _ _ _ _ _ _ _ _) as [(s1 & f1)|w]; cbn [bind]; [|reflexivity]. rewrite IH.
  destruct (sock_run _ _ _ _ _ _ _) as [(s2 & f2)|w]; reflexivity.
Qed.
