(** Configurations for the examples of C158-C160. *)
From Coq Require Import ZArith NArith List Bool.
From Verif Require Import Base Config Cfgs Checks SpecChecks.
Import ListNotations.
Open Scope Z_scope.

(** Close to tools/xcp_config.h: [layer], XCP_MAX_CTO, number of events,
    XCP_ENABLE_WRITE_DAQ_MULTIPLE. *)
Definition user (layer cto events multiple : Z) : menv := fun m =>
  match m with
  | Layer => Some layer | MaxCto => Some cto | MaxDto => Some 64 | LengthSize => Some 2 | CounterSize => Some 2
  | Events => Some events | WriteMultiple => Some multiple | GetSeed => Some 1 | Unlock => Some 1
  | DaqCommands => Some 1 | ConfigType => Some 1 | MasterBlock => Some 0 | DownloadNext => Some 0
  | FreeDaq => Some 1 | AllocDaq => Some 1 | AllocOdt => Some 1 | AllocOdtEntry => Some 1 | Entities => Some 100
  | _ => None
  end.
Definition checked (e : menv) : menv := match checks e with Some e' => e' | None => e end.
Definition outcome (e : menv) : option (list Z) :=
  option_map (fun e => map (val e) [MaxCto; MaxDto; LengthSize; CounterSize; Protection; EntityBits]) (checks e).
Definition small_cfg : cfg := w_max_cto 4 (w_opt (optset all_optional) cfg_eth).
Definition many_cfg : cfg := w_events (repeat (mkEvent 0 0 4 6 10) 300) cfg_eth.
Ltac described := constructor; vm_compute; try reflexivity; split; intro; first [reflexivity|discriminate].
Lemma eth_described : describes (checked (user 5 64 3 1)) cfg_eth.
Proof. described. Qed.
Lemma small_described : describes (checked (user 5 4 3 0)) small_cfg.
Proof. described. Qed.
Lemma many_described : describes (checked (user 5 64 300 1)) many_cfg.
Proof. described. Qed.
Lemma user_switches : switches (user 5 64 3 1).
Proof. intros m Hm. cbn in Hm. repeat (destruct Hm as [ <- |Hm]; [vm_compute; auto|]). destruct Hm. Qed.
