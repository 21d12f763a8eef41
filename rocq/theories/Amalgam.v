(** The script that makes one source file of the sources, for use as a library on
    Arduino boards: tools/amalgam8.py. *)
From Coq Require Import NArith List Bool Ascii String.
From Verif Require Import Base Options.
Import ListNotations.
Open Scope N_scope.

(** A text is the list of its characters (code points).  Simplification: the decoding
    of the files, and the translation of their ends of line to line feeds, by Python's
    text mode (tools/amalgam8.py 30, 102) are not modelled. *)
Definition text := list N.

(** [str.strip] and [\s] of the regular expressions: the white space of Unicode. *)
Definition blank (c : N) : bool :=
  ((9 <=? c) && (c <=? 13)) || ((28 <=? c) && (c <=? 32)) || (c =? 133) || (c =? 160) || (c =? 5760)
  || ((8192 <=? c) && (c <=? 8202)) || (c =? 8232) || (c =? 8233) || (c =? 8239) || (c =? 8287) || (c =? 12288).

(** Iterating over a file (tools/amalgam8.py 33): its lines, each with its line feed. *)
Fixpoint lines (t : text) : list text :=
  match t with
  | [] => []
  | c :: r => if c =? 10 then [c] :: lines r
              else match lines r with [] => [[c]] | l :: ls => (c :: l) :: ls end
  end.

(** [line.strip()] (tools/amalgam8.py 35, 41, 45, 48). *)
Fixpoint lstrip (t : text) : text :=
  match t with [] => [] | c :: r => if blank c then lstrip r else t end.
Definition rstrip (t : text) : text := rev (lstrip (rev t)).
Definition strip (t : text) : text := rstrip (lstrip t).

(** Matching of a fixed text, and of [\s+]; the text left.  What follows [\s+] in the
    expressions of the script does not start with white space, hence [\s+] takes all
    there is. *)
Fixpoint literal (w t : text) : option text :=
  match w, t with
  | [], _ => Some t
  | a :: w', b :: t' => if a =? b then literal w' t' else None
  | _, [] => None
  end.
Definition spaces (t : text) : option text :=
  match t with c :: _ => if blank c then Some (lstrip t) else None | [] => None end.
(** The characters up to a quote (line 15 of the script). *)
Fixpoint quoted (t : text) : option text :=
  match t with
  | [] => None
  | c :: r => if c =? 34 then Some [] else option_map (cons c) (quoted r)
  end.

Definition bind {A B} (o : option A) (f : A -> option B) : option B :=
  match o with Some x => f x | None => None end.

(** START and END (tools/amalgam8.py 12-13), INCLUDE (line 15) and what it captures. *)
Definition marker (w t : text) : bool :=
  match bind (literal (chars "/*!!!") t) (fun a => bind (spaces a) (fun b => bind (literal w b)
        (fun c => bind (spaces c) (literal (chars "!!!*/"))))) with Some _ => true | None => false end.
Definition start_word : text := chars "START-INCLUDE-SECTION".
Definition end_word : text := chars "END-INCLUDE-SECTION".
Definition include (t : text) : option text :=
  bind (literal (chars "#include") t) (fun a => bind (spaces a) (fun b => bind (literal [34] b) quoted)).

(** tools/amalgam8.py 33-51: the lines of one file; [coll]: the state is COLLECTING.
    The lines kept, and the names of the included files.  A start marker changes the
    state, and is then looked at as first line of the section. *)
Fixpoint scan (coll : bool) (ls : list text) : list text * list text :=
  match ls with
  | [] => ([], [])
  | l :: r =>
      if negb coll && negb (marker start_word (strip l)) then
        let (k, n) := scan false r in (l :: k, n)
      else if marker end_word (strip l) then scan false r
      else let (k, n) := scan true r in
           (k, match include (strip l) with Some f => f :: n | None => n end)
  end.

(** *** Names of files *)

(** A path is the list of its parts; a path from the root of a file system starts with
    the part "/".  Simplifications: on Windows, drive letters are not modelled, and
    names that differ in the case of letters are different. *)
Inductive host := Posix | Windows.
Definition path := list text.
Definition path_dec (p q : path) : {p = q} + {p <> q} := list_eq_dec (list_eq_dec N.eq_dec) p q.

(** [str(fn)] (tools/amalgam8.py 28), for paths not from the root. *)
Definition sep (h : host) : N := match h with Posix => 47 | Windows => 92 end.
Fixpoint spell (h : host) (p : path) : text :=
  match p with [] => [] | [a] => a | a :: r => (a ++ sep h :: spell h r)%list end.

(** [pathlib.Path(item)] of an included name: empty parts and parts "." are dropped. *)
Definition is_sep (h : host) (c : N) : bool :=
  (c =? 47) || match h with Posix => false | Windows => c =? 92 end.
Fixpoint parts (h : host) (t : text) : path :=
  match t with
  | [] => [[]]
  | c :: r => if is_sep h c then [] :: parts h r
              else match parts h r with [] => [[c]] | a :: p => (c :: a) :: p end
  end.
Definition proper (a : text) : bool :=
  match a with [] => false | [c] => negb (c =? 46) | _ => true end.
(** tools/amalgam8.py 61: Path("../inc") / Path(item). *)
Definition inc_dir : path := [chars ".."; chars "inc"].
Definition inc_path (h : host) (t : text) : path :=
  let p := filter proper (parts h t) in
  match t with
  | c :: _ => if is_sep h c then chars "/" :: p else (inc_dir ++ p)%list
  | [] => inc_dir
  end.

(** tools/amalgam8.py 21-54: the files not in the stop list, each with the lines kept
    and the included names.  The state starts as IDLE for each file (line 27).
    Simplification: the files are different, as the results of [glob] are (96-97). *)
Record file := File { fl_path : path; fl_text : text }.
Record entry := Entry { en_path : path; en_kept : list text; en_incs : list text }.
Definition stopped (h : host) (stop : list text) (f : file) : bool :=
  if in_dec (list_eq_dec N.eq_dec) (spell h (fl_path f)) stop then true else false.
Definition entry_of (f : file) : entry :=
  let (k, n) := scan false (lines (fl_text f)) in Entry (fl_path f) k n.
Definition builder (h : host) (stop : list text) (fs : list file) : list entry :=
  map entry_of (filter (fun f => negb (stopped h stop f)) fs).

(** [source_files]: the dictionary has an entry only for files of which at least one
    line was kept (tools/amalgam8.py 39, 52-53). *)
Fixpoint kept_text (es : list entry) (p : path) : option text :=
  match es with
  | [] => None
  | e :: r => if path_dec (en_path e) p then match en_kept e with [] => None | ls => Some (List.concat ls) end
              else kept_text r p
  end.

(** *** Order of the headers *)

(** The argument of TopologicalSorter: tools/amalgam8.py 56-64, 100. *)
Definition graph := list (path * list path).
Definition graph_of (h : host) (es : list entry) : graph :=
  map (fun e => (en_path e, map (inc_path h) (en_incs e))) es.

(** [graphlib.TopologicalSorter] of Python 3.9 and later, which is not part of the
    repository.  The nodes in the order of their first mention; for each its number of
    predecessors (repetitions counted) and its successors (with repetitions). *)
Definition mentions (g : graph) : list path := flat_map (fun x => fst x :: snd x) g.
Fixpoint once (seen l : list path) : list path :=
  match l with
  | [] => []
  | a :: r => if in_dec path_dec a seen then once seen r else a :: once (a :: seen) r
  end.
Definition nodes (g : graph) : list path := once [] (mentions g).
Definition succs (g : graph) (n : path) : list path :=
  flat_map (fun x => map (fun _ => fst x) (filter (fun p => if path_dec p n then true else false) (snd x))) g.
Definition npred (g : graph) (n : path) : nat :=
  List.length (flat_map (fun x => if path_dec (fst x) n then snd x else []) g).

(** One call of [done] for one node: the numbers of its successors are counted down,
    those that reach zero become ready. *)
Definition counts := path -> nat.
Fixpoint release (ss : list path) (c : counts) : counts * list path :=
  match ss with
  | [] => (c, [])
  | s :: r =>
      let c' := fun p => if path_dec p s then Nat.pred (c s) else c p in
      let (c'', l) := release r c' in
      (c'', if Nat.eqb (c' s) 0 then s :: l else l)
  end.
(** [static_order]: [get_ready] hands out all nodes that are ready, [done] is called for
    them in this order, and appends to the list of ready nodes, empty by then: the nodes
    are handed out in the order of one queue. *)
Fixpoint order (fuel : nat) (g : graph) (q : list path) (c : counts) : list path :=
  match fuel, q with
  | S k, n :: r => let (c', l) := release (succs g n) c in n :: order k g (r ++ l)%list c'
  | _, _ => []
  end.
(** [prepare] raises CycleError if there is a cycle.  Its search for a cycle is replaced:
    the error is raised if not all nodes can be handed out (C137_cycle: these are the
    graphs with a cycle). *)
Definition static_order (g : graph) : option (list path) :=
  let ns := nodes g in
  let o := order (List.length ns) g (filter (fun n => Nat.eqb (npred g n) 0) ns) (npred g) in
  if Nat.eqb (List.length o) (List.length ns) then Some o else None.

(** *** The file written *)

(** tools/amalgam8.py 66-74; [center] puts the odd space behind the name, as 76 is even. *)
Definition center (t : text) : text :=
  let pad := (76 - List.length t)%nat in
  let left := Nat.div2 pad in
  (repeat 32 left ++ t ++ repeat 32 (pad - left))%list.
Definition banner (p : path) : text :=
  ([10] ++ repeat 47 80 ++ [10] ++ chars "//" ++ center (last p []) ++ chars "//" ++ [10]
   ++ repeat 47 80 ++ [10; 10])%list.

(** What becomes of the file "xcp.h": it is complete; the script ends before the file is
    opened (CycleError, line 101); it ends with RuntimeError (line 108) for the given
    item, and the file ends with the banner of this item. *)
Inductive result := Written (t : text) | Cyclic | Failed (item : path) (t : text).

(** tools/amalgam8.py 103-108, from [t] on. *)
Fixpoint put_headers (es : list entry) (os : list path) (t : text) : text + (path * text) :=
  match os with
  | [] => inl t
  | p :: r =>
      let t' := (t ++ banner p)%list in
      match kept_text es p with
      | Some k => put_headers es r (t' ++ k)%list
      | None => inr (p, t')
      end
  end.
(** tools/amalgam8.py 110-112. *)
Definition put_source (e : entry) : text :=
  match en_kept e with [] => [] | ls => (banner (en_path e) ++ List.concat ls)%list end.

(** tools/amalgam8.py 77-93, 98. *)
Definition src_stop : list text := map chars
  ["..\inc\queue.h"; "..\src\hw\options.c"; "..\src\hw\terminal.c"; "..\src\hw\threads.c";
   "..\src\hw\linux\hw.c"; "..\src\hw\macos\hw.c"; "..\src\hw\posix\hw.c"; "..\src\hw\win\hw.c";
   "..\src\tl\bt\winbt.c"; "..\src\tl\can\kvaser.c"; "..\src\tl\can\linux_socket_can.c";
   "..\src\tl\eth\common.c"; "..\src\tl\eth\linuxeth.c"; "..\src\tl\eth\wineth.c";
   "..\src\tl\eth\wineth_iocp.c"]%string.
Definition inc_stop : list text := map chars
  ["..\inc\xcp_ow.h"; "..\inc\xcp_terminal.h"; "..\inc\xcp_threads.h"; "..\inc\xcp_tui.h"]%string.

(** tools/amalgam8.py 95-112: the script, given the headers and the sources in the order
    in which [glob] returns them. *)
Definition amalgam (h : host) (incs srcs : list file) : result :=
  let es := builder h inc_stop incs in
  match static_order (graph_of h es) with
  | None => Cyclic
  | Some os =>
      match put_headers es os [] with
      | inr (p, t) => Failed p t
      | inl t => Written (t ++ List.concat (map put_source (builder h src_stop srcs)))
      end
  end.
