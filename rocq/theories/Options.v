(** Command line of the example programs: src/hw/options.c, and the use of its
    result by src/tl/eth/linuxeth.c, src/tl/eth/common.c, src/tl/eth/wineth.c and
    src/tl/can/linux_socket_can.c. *)
From Coq Require Import NArith ZArith List Bool Ascii String.
From Verif Require Import Base.
Import ListNotations.
Open Scope N_scope.

(** A C string without its final zero. *)
Definition word := list N.
Definition chars (s : string) : word := map N_of_ascii (list_ascii_of_string s).
Definition ch (s : string) : N := hd 0 (chars s).

(** What becomes of the program: it goes on with the options, ends with the given
    exit code, or its behaviour is undefined. *)
Inductive parsed (A : Type) := Parsed (o : A) | Exit (code : N) | Undefined.
Arguments Parsed {A} o. Arguments Exit {A} code. Arguments Undefined {A}.

(** ** getopt *)

(** getopt(3) as called in src/hw/options.c 122, for the given option string.  The
    library function is not part of the repository; the model follows POSIX.
    [permute]: arguments that are not options are passed over, as the GNU library
    does; otherwise they end the search.  Calls that returned '?' are [Bad]. *)
Inductive event := Opt (c : N) (arg : word) | Bad.

(** Place of a character in the option string: [Some true] if it takes an argument. *)
Fixpoint known (os : word) (c : N) : option bool :=
  match os with
  | [] => None
  | x :: t => if (x =? c) && negb (c =? ch ":") then Some (match t with y :: _ => y =? ch ":" | [] => false end) else known t c
  end.
(** The letters of one argument behind the dash; second part: the letter whose
    argument is the next word. *)
Fixpoint cluster (os : word) (w : word) : list event * option N :=
  match w with
  | [] => ([], None)
  | c :: t =>
      match known os c with
      | None => let (l, p) := cluster os t in (Bad :: l, p)
      | Some false => let (l, p) := cluster os t in (Opt c [] :: l, p)
      | Some true => match t with [] => ([], Some c) | _ => ([Opt c t], None) end
      end
  end.
(** [pend] is the letter waiting for its argument. *)
Fixpoint getopt (permute : bool) (os : word) (pend : option N) (args : list word) : list event :=
  match args with
  | [] => match pend with Some _ => [Bad] | None => [] end
  | a :: t =>
      match pend with
      | Some c => Opt c a :: getopt permute os None t
      | None =>
          match a with
          | d :: ((c :: r) as w) =>
              if d =? ch "-" then
                if (c =? ch "-") && (lenN r =? 0) then []
                else let (l, p) := cluster os w in l ++ getopt permute os p t
              else if permute then getopt permute os None t else []
          | _ => if permute then getopt permute os None t else []
          end
      end
  end.

(** ** atoi *)

(** The library function: white space, a sign, digits.  [None]: the value does not
    fit an int of 32 bits, which C leaves undefined. *)
Definition is_space (c : N) : bool := (c =? 32) || ((9 <=? c) && (c <=? 13)).
Definition is_digit (c : N) : bool := (48 <=? c) && (c <=? 57).
Fixpoint digits (acc : Z) (w : word) : Z :=
  match w with
  | c :: t => if is_digit c then digits (10 * acc + Z.of_N (c - 48))%Z t else acc
  | [] => acc
  end.
Definition number (w : word) : Z :=
  match w with
  | c :: t => if c =? ch "-" then (- digits 0 t)%Z else if c =? ch "+" then digits 0 t else digits 0 w
  | [] => 0%Z
  end.
Fixpoint atoi_all (w : word) : Z :=
  match w with c :: t => if is_space c then atoi_all t else number w | [] => 0%Z end.
Definition atoi (w : word) : option Z :=
  let v := atoi_all w in if ((- 2 ^ 31 <=? v) && (v <? 2 ^ 31))%Z then Some v else None.

(** ** Ethernet, POSIX *)

(** inc/xcp.h 925-930 *)
Record eth_opts := mkEth { eo_ipv6 : bool; eo_tcp : bool; eo_port : N }.
(** src/hw/options.c 110-116; [p_assigned] and [v_assigned] start as 0. *)
Definition eth_os : word := chars "htu46p:".
Definition eth_default : eth_opts := mkEth false true 5555.

(** src/hw/options.c 122-173: the loop.  usage (89-104) ends the program with 0. *)
Fixpoint eth_loop (o : eth_opts) (p v : bool) (l : list event) : parsed eth_opts :=
  match l with
  | [] => Parsed o
  | Bad :: _ => Exit 0
  | Opt c arg :: t =>
      if c =? ch "h" then Exit 0
      else if c =? ch "t" then if p then Exit 1 else eth_loop (mkEth (eo_ipv6 o) true (eo_port o)) true v t
      else if c =? ch "u" then if p then Exit 1 else eth_loop (mkEth (eo_ipv6 o) false (eo_port o)) true v t
      else if c =? ch "4" then if v then Exit 1 else eth_loop (mkEth false (eo_tcp o) (eo_port o)) p true t
      else if c =? ch "6" then if v then Exit 1 else eth_loop (mkEth true (eo_tcp o) (eo_port o)) p true t
      else
        match atoi arg with
        | Some n => eth_loop (mkEth (eo_ipv6 o) (eo_tcp o) (Z.to_N (n mod 2 ^ 16))) p v t
        | None => Undefined
        end
  end.
(** src/hw/options.c 106-180; the arguments behind the program name. *)
Definition parse_eth (permute : bool) (args : list word) : parsed eth_opts :=
  eth_loop eth_default false false (getopt permute eth_os None args).

(** src/tl/eth/linuxeth.c 81-95: what XcpTl_Init asks the system for. *)
Record endpoint := mkEnd { en_ipv6 : bool; en_tcp : bool; en_port : N }.
Definition listens (o : eth_opts) : endpoint := mkEnd (eo_ipv6 o) (eo_tcp o) (eo_port o).
(** src/tl/eth/common.c 235-242: what XcpTl_PrintConnectionInformation prints. *)
Definition announces (o : eth_opts) : endpoint := mkEnd (eo_ipv6 o) (eo_tcp o) 5555.

(** ** SocketCAN *)

(** inc/xcp.h 933-934: can_interf has 64 bytes. *)
Record can_opts := mkCan { co_fd : bool; co_if : word }.
Definition can_os : word := chars "hi:f".
(** src/hw/options.c 117-180; [None]: no interface assigned yet. *)
Fixpoint can_loop (fd : bool) (i : option word) (l : list event) : parsed can_opts :=
  match l with
  | [] => Parsed (mkCan fd (match i with Some w => w | None => chars "vcan0" end))
  | Bad :: _ => Exit 0
  | Opt c arg :: t =>
      if c =? ch "h" then Exit 0
      else if c =? ch "f" then can_loop true i t
      else if lenN arg <? 64 then can_loop fd (Some arg) t else Undefined
  end.
Definition parse_can (permute : bool) (args : list word) : parsed can_opts :=
  can_loop false None (getopt permute can_os None args).
(** src/tl/can/linux_socket_can.c 66-75: locate_interface copies the name into
    ifr_name, which has 16 bytes (IFNAMSIZ). *)
Definition locate (o : can_opts) : parsed can_opts := if lenN (co_if o) <? 16 then Parsed o else Undefined.
(** Command line to the interface used in XcpTl_Init (src/tl/can/linux_socket_can.c 77-123). *)
Definition start_can (permute : bool) (args : list word) : parsed can_opts :=
  match parse_can permute args with Parsed o => locate o | r => r end.

(** ** Ethernet, Windows *)

(** src/hw/options.c 57-79: one argument. *)
Definition win_arg (o : bool * bool) (a : word) : bool * bool :=
  match a with
  | d :: t =>
      if (d =? ch "/") || (d =? ch "-") then
        match t with
        | c :: _ => if c =? ch "4" then (false, snd o) else if c =? ch "6" then (true, snd o)
                    else if c =? ch "u" then (fst o, false) else if c =? ch "t" then (fst o, true) else o
        | [] => o
        end
      else o
  | [] => o
  end.
(** src/hw/options.c 48-86; the pair is (ipv6, tcp).  The port is fixed
    (src/tl/eth/wineth.c 93 and 115, src/tl/eth/wineth_iocp.c 47 and 133). *)
Definition parse_win (args : list word) : endpoint :=
  let o := fold_left win_arg args (false, true) in mkEnd (fst o) (snd o) 5555.
