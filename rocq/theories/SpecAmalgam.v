(** Specification of the one-file version of the sources. *)
From Coq Require Import NArith List Bool Ascii String Relations.
From Verif Require Import Options Amalgam.
Import ListNotations.
Open Scope N_scope.
Open Scope list_scope.

(** ** Lines *)

(** The white space characters of Unicode, as Python's documentation of str.isspace has
    them. *)
Definition whitespace : list N :=
  [9; 10; 11; 12; 13; 28; 29; 30; 31; 32; 0x85; 0xA0; 0x1680;
   0x2000; 0x2001; 0x2002; 0x2003; 0x2004; 0x2005; 0x2006; 0x2007; 0x2008; 0x2009; 0x200A;
   0x2028; 0x2029; 0x202F; 0x205F; 0x3000].
Definition blanks (t : text) : Prop := forall c, In c t -> In c whitespace.

(** A line that is a marker of an include section: a comment with the given word. *)
Definition marks (w l : text) : Prop :=
  exists a s s' r, l = (a ++ chars "/*!!!" ++ s ++ w ++ s' ++ chars "!!!*/" ++ r)%list
    /\ blanks a /\ blanks s /\ s <> [] /\ blanks s' /\ s' <> [].
(** A line that includes the file with the name [n], given in quotes. *)
Definition includes_file (l n : text) : Prop :=
  exists a s r, l = (a ++ chars "#include" ++ s ++ [34] ++ n ++ [34] ++ r)%list
    /\ blanks a /\ blanks s /\ s <> [] /\ ~ In 34 n.

(** A file, as its author sees it: text, an include section between two markers, text,
    and so on; possibly with a last section that is not closed. *)
Record section := Section { sc_before : list text; sc_open : text; sc_body : list text; sc_close : text }.
Record doc := Doc { dc_sections : list section; dc_after : list text; dc_rest : option (text * list text) }.

Definition sec_lines (s : section) : list text := (sc_before s ++ [sc_open s] ++ sc_body s ++ [sc_close s])%list.
Definition rest_lines (o : option (text * list text)) : list text :=
  match o with Some (m, b) => m :: b | None => [] end.
Definition doc_lines (d : doc) : list text :=
  (List.concat (map sec_lines (dc_sections d)) ++ dc_after d ++ rest_lines (dc_rest d))%list.
(** The text outside of the sections, and the lines in them. *)
Definition doc_text (d : doc) : list text := (List.concat (map sc_before (dc_sections d)) ++ dc_after d)%list.
Definition doc_body (d : doc) : list text :=
  (List.concat (map sc_body (dc_sections d)) ++ match dc_rest d with Some (_, b) => b | None => [] end)%list.

(** Lines end with the only line feed they have; the last one of a file may have none. *)
Definition line_ok (l : text) : Prop := exists t, l = (t ++ [10])%list /\ ~ In 10 t.
Fixpoint lines_ok (ls : list text) : Prop :=
  match ls with
  | [] => True
  | [l] => line_ok l \/ (l <> [] /\ ~ In 10 l)
  | l :: r => line_ok l /\ lines_ok r
  end.
Definition plain (ls : list text) : Prop := forall l, In l ls -> ~ marks start_word l.
Definition inner (ls : list text) : Prop := forall l, In l ls -> ~ marks end_word l.
Definition sec_ok (s : section) : Prop :=
  plain (sc_before s) /\ marks start_word (sc_open s) /\ inner (sc_body s) /\ marks end_word (sc_close s).
Definition doc_ok (d : doc) : Prop :=
  lines_ok (doc_lines d) /\ (forall s, In s (dc_sections d) -> sec_ok s) /\ plain (dc_after d)
  /\ match dc_rest d with Some (m, b) => marks start_word m /\ inner b | None => True end.

(** The names included by a list of lines, in order. *)
Inductive named : list text -> list text -> Prop :=
| named_nil : named [] []
| named_yes l n ls ns : includes_file l n -> named ls ns -> named (l :: ls) (n :: ns)
| named_no l ls ns : (forall n, ~ includes_file l n) -> named ls ns -> named (l :: ls) ns.

(** ** Headers *)

(** A header as the script sees it: its path, its text outside of the sections, and
    the paths of the headers it includes. *)
Record header := Header { hd_path : path; hd_text : text; hd_incs : list path }.
Definition header_of (h : host) (f : file) (x : header) : Prop :=
  exists d ns, doc_ok d /\ fl_text f = List.concat (doc_lines d) /\ named (doc_body d) ns
    /\ x = Header (fl_path f) (List.concat (doc_text d)) (map (inc_path h) ns).

(** [a] is included by [b]; includes that lead back to their start. *)
Definition included (hs : list header) (a b : path) : Prop :=
  exists x, In x hs /\ hd_path x = b /\ In a (hd_incs x).
Definition cyclic (hs : list header) : Prop := exists p, clos_trans _ (included hs) p p.
(** The paths a set of headers mentions. *)
Definition mentioned (hs : list header) (p : path) : Prop :=
  exists x, In x hs /\ (hd_path x = p \/ In p (hd_incs x)).

(** An order in which each path mentioned comes once, behind all that it includes. *)
Definition ordered (hs : list header) (os : list path) : Prop :=
  NoDup os /\ (forall p, In p os <-> mentioned hs p)
  /\ (forall a b l1 l2, os = (l1 ++ b :: l2)%list -> included hs a b -> In a l1).

(** The text of a file in the output, under its banner. *)
Definition piece (p : path) (t : text) : text := (banner p ++ t)%list.
(** Text of the header with the given path, if there is any. *)
Definition has_text (hs : list header) (p : path) (t : text) : Prop :=
  exists x, In x hs /\ hd_path x = p /\ hd_text x = t /\ t <> [].
(** The sources with any text at all, in their order. *)
Inductive pieces : list header -> text -> Prop :=
| pieces_nil : pieces [] []
| pieces_empty x l t : hd_text x = [] -> pieces l t -> pieces (x :: l) t
| pieces_text x l t : hd_text x <> [] -> pieces l t -> pieces (x :: l) (piece (hd_path x) (hd_text x) ++ t)%list.

(** The order of the headers with their texts. *)
Definition joined (os : list path) (ts : list text) : text :=
  List.concat (map (fun x => piece (fst x) (snd x)) (combine os ts)).

(** ** The stop lists *)

(** A file is left out if the stop list has its path, spelled in the way of the host. *)
Definition listed (h : host) (stop : list text) (f : file) : bool :=
  if in_dec (list_eq_dec N.eq_dec) (spell h (fl_path f)) stop then true else false.
Definition used (h : host) (stop : list text) (fs : list file) : list file :=
  filter (fun f => negb (listed h stop f)) fs.

(** The result of the script for headers [hs] and sources [ss]: [os] is the order of the
    headers, which come with their texts [ts]; the script gives up at the first path
    without text. *)
Inductive outcome (hs ss : list header) : result -> Prop :=
| oc_written os ts u : ordered hs os -> Forall2 (has_text hs) os ts -> pieces ss u ->
    outcome hs ss (Written (joined os ts ++ u))
| oc_cyclic : cyclic hs -> outcome hs ss Cyclic
| oc_failed os p os' ts : ordered hs (os ++ p :: os') -> Forall2 (has_text hs) os ts ->
    (forall t, ~ has_text hs p t) -> outcome hs ss (Failed p (joined os ts ++ banner p)).

(** A text within another one. *)
Definition within (a t : text) : Prop := exists u v, t = (u ++ a ++ v)%list.

(** The file [d'] is [d] with one more line in one of its sections. *)
Definition adds_line (d : doc) (l : text) (d' : doc) : Prop :=
  exists ss s ss' b b', dc_sections d = (ss ++ s :: ss')%list /\ sc_body s = (b ++ b')%list
    /\ d' = Doc (ss ++ Section (sc_before s) (sc_open s) (b ++ l :: b') (sc_close s) :: ss') (dc_after d) (dc_rest d).
