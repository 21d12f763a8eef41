(** C74 and C77: who is obeyed. *)
From Coq Require Import NArith List Bool Lia.
From Verif Require Import Base Config State Core Spec Demo Net SpecNet ProofsNet.
Import ListNotations.
Open Scope N_scope.

(** ** C74 UDP: only the connected master is obeyed *)

(** Whoever has connected: a frame has the same effect from whichever peer, ... *)
Theorem C74_refuted : forall c n e p q f n1 o1, net_step c true (EFrame e p f) n = Ok (n1, o1) ->
  exists n2 o2, net_step c true (EFrame e q f) n = Ok (n2, o2) /\ t_st n2 = t_st n1 /\ map snd o2 = map snd o1.
Proof. exact any_peer. Qed.
Print Assumptions C74_refuted.

(** ... and with CONNECT any peer takes over the session: in every continuation all frames go to it,
    measurement data included, until the next CONNECT. *)
Theorem C74_takeover_refuted : forall c n e q f l n1 o1, hd_error f = Some 0xFF -> s_busy (t_st n) = false -> Forall no_connect l ->
  net_run c true (EFrame e q f :: l) n = Ok (n1, o1) -> forall d x, In (d, x) o1 -> d = q.
Proof. exact takeover. Qed.
Print Assumptions C74_takeover_refuted.

(** Without CONNECT the peer does not see the answers: they go to the one that connected last. *)
Theorem C74_answers : forall c l n n1 o1, Forall no_connect l -> net_run c true l n = Ok (n1, o1) ->
  t_conn n1 = t_conn n /\ (forall d x, In (d, x) o1 -> d = t_conn n).
Proof. exact keeps_conn_run. Qed.
Print Assumptions C74_answers.

(** Peer 1 connects; peer 2 writes three bytes of the memory, and takes over the session:
    the last answer, to a command of peer 1, goes to peer 2. *)
Example C74_case :
  match (n0 <- net_boot cfg_eth mem0 ;;
         net_run cfg_eth true (map (fun x => EFrame env_yes (fst x) (snd x))
           [(1, [0xFF; 0]); (2, [0xF6; 0; 0; 0; 0; 0x20; 0; 0]); (2, [0xF0; 3; 0xAA; 0xBB; 0xCC]); (2, [0xFF; 0]); (1, [0xFD])]) n0) with
  | Ok (n, o) => (map fst o, map (fun x => hd 0 (p_data (snd x))) o, map (s_mem (t_st n)) [0x1FFF; 0x2000; 0x2001; 0x2002; 0x2003], t_conn n)
  | _ => ([], [], [], 0)
  end = ([1; 1; 1; 2; 2], [0xFF; 0xFF; 0xFF; 0xFF; 0xFF], [0xFF; 0xAA; 0xBB; 0xCC; 3], 2).
Proof. vm_compute. reflexivity. Qed.

(** ** C77 TCP: the session ends with the connection *)

(** The next peer continues the session: nothing of the state changes, and every frame has
    the effect it would have had from the previous peer. *)
Theorem C77_refuted : forall c n p q e f, t_sock n = Some p ->
  net_run c false [EEof; EAccept q] n = Ok (mkNet (t_st n) false (Some q) q (t_conn n), []) /\
  forall n1 o1, net_step c false (EFrame e p f) n = Ok (n1, o1) ->
  exists n2 o2, net_run c false [EEof; EAccept q; EFrame e q f] n = Ok (n2, o2) /\ t_st n2 = t_st n1 /\ map snd o2 = map snd o1 /\
    forall d x, In (d, x) o2 -> d = q.
Proof. exact session_survives. Qed.
Print Assumptions C77_refuted.

(** Peer 1 connects, unlocks DAQ (resource 4) and leaves; peer 2, without CONNECT, finds it unlocked
    and reads the memory. *)
Example C77_case :
  match (n0 <- net_boot cfg_eth mem0 ;;
         net_run cfg_eth false
           [EAccept 1; EFrame env_yes 1 [0xFF; 0]; EFrame env_yes 1 [0xF8; 0; 4]; EFrame env_yes 1 [0xF7; 1; 0x42]; EEof;
            EAccept 2; EFrame env_yes 2 [0xFD]; EFrame env_yes 2 [0xF4; 2; 0; 0; 0; 0x20; 0; 0]] n0) with
  | Ok (n, o) => (map (fun x => (fst x, p_data (snd x))) (skipn 3 o), t_sock n, s_conn (t_st n))
  | _ => ([], None, false)
  end = ([(2, [0xFF; 0; 25; 0; 0; 0]); (2, [0xFF; 0; 1])], Some 2, true).
Proof. vm_compute. reflexivity. Qed.

(** ** C117 TCP: a session belongs to one peer *)

(** From CONNECT on, whatever commands and other operations follow and whoever else tries to connect, the connection stays
    with the peer and every frame goes to it, until it disconnects, is refused a key, or leaves. *)
Theorem C117_holds : forall c n p e q f l n1 o1, t_sock n = Some p -> s_busy (t_st n) = false -> hd_error f = Some 0xFF -> Forall no_end l ->
  net_run c false (EFrame e q f :: l) n = Ok (n1, o1) -> t_sock n1 = Some p /\ t_tl n1 = true /\ (forall d x, In (d, x) o1 -> d = p).
Proof. exact holds_thm. Qed.
Print Assumptions C117_holds.
(** Refuted for a peer that has not sent CONNECT yet: the next one to connect replaces it, and gets all frames. *)
Theorem C117_displaced_refuted : forall c n p q l n1 o1, t_sock n = Some p -> t_tl n = false ->
  Forall (fun ev => no_end ev /\ no_connect ev /\ forall r, ev <> EAccept r) l -> net_run c false (EAccept q :: l) n = Ok (n1, o1) ->
  t_sock n1 = Some q /\ (forall d x, In (d, x) o1 -> d = q).
Proof. exact displaced_thm. Qed.
Print Assumptions C117_displaced_refuted.

(** Peer 1 connects and asks for the status, in between peer 2 tries to connect. *)
Example C117_case :
  Forall no_end [EAccept 2; EOp env_yes (OEvent 1 []); EFrame env_yes 1 [0xFD]] /\
  match (n0 <- net_boot cfg_eth mem0 ;;
         net_run cfg_eth false [EAccept 1; EFrame env_yes 1 [0xFF; 0]; EAccept 2; EOp env_yes (OEvent 1 []); EFrame env_yes 1 [0xFD]] n0) with
  | Ok (n, o) => (map fst o, t_sock n) | _ => ([], None) end = ([1; 1; 1], Some 1) /\
  match (n0 <- net_boot cfg_eth mem0 ;; net_run cfg_eth false [EAccept 1; EAccept 2; EOp env_yes (OEvent 1 [])] n0) with
  | Ok (n, o) => (map fst o, t_sock n) | _ => ([], None) end = ([2], Some 2).
Proof.
  split; [|split; vm_compute; reflexivity]. apply Forall_cons; [exact I|]. apply Forall_cons; [split; discriminate|].
  apply Forall_cons; [|constructor]. exists 0xFD. split; [reflexivity|split; discriminate].
Qed.
