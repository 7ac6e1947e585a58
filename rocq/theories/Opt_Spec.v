(** What a command line should mean, said without the reader's code. *)
From Coq Require Import String.
From Verif Require Import Base Cstr_Model Opt_Model.

(** A usable table of options: at most 31, with different non-empty names
    that contain no '=' and do not begin with '-'; an option without variable
    has no value. *)
Definition table_ok (opts : list opt) : Prop :=
  zlen opts <= 31 /\ NoDup (map p_name opts) /\
  Forall (fun o => p_name o <> [] /\ ~ In 61 (p_name o) /\ hd 0 (p_name o) <> 45 /\ (p_var o = false -> p_default o = None)) opts.

(** The text a names option i: it is its name, or it is no option's name and
    begins the name of option i and of no other. *)
Definition begins (a n : chars) : Prop := exists b, n = a ++ b.
Definition denotes (opts : list opt) (a : chars) (i : Z) : Prop :=
  exists o, znth opts i = Some o /\
    (p_name o = a \/
     (~ In a (map p_name opts) /\ begins a (p_name o) /\ forall j o', znth opts j = Some o' -> begins a (p_name o') -> j = i)).

(** An option is a flag, or takes a value. *)
Definition is_flag (o : opt) : Prop := p_var o = false \/ p_default o = Some (str "no").

(** What can be on a command line: "--a=v", "--a v", "--a" and words.  One
    dash is as good as two. *)
Inductive item :=
| GivenEq (two : bool) (a : chars) (v : chars)
| GivenNext (two : bool) (a : chars) (v : chars)
| Flagged (two : bool) (a : chars)
| Plain (w : chars).

Definition dashes (two : bool) : chars := if two then [45; 45] else [45].
Definition words_of (it : item) : list chars :=
  match it with
  | GivenEq two a v => [dashes two ++ a ++ 61 :: v]
  | GivenNext two a v => [dashes two ++ a; v]
  | Flagged two a => [dashes two ++ a]
  | Plain w => [w]
  end.
(** The words of a line; behind "--" there are words only. *)
Definition line (items : list item) (tail : option (list chars)) : list chars :=
  concat (map words_of items) ++ match tail with None => [] | Some ws => str "--" :: ws end.

(** A word that cannot be taken for an option *)
Definition plain_word (w : chars) : Prop := match w with 45 :: _ :: _ => False | _ => True end.

(** The item gives option i the value v (NULL for a flag). *)
Definition gives (opts : list opt) (it : item) (i : Z) (v : option chars) : Prop :=
  match it with
  | GivenEq _ a x => denotes opts a i /\ v = Some x
  | GivenNext _ a x => denotes opts a i /\ v = Some x
  | Flagged _ a => denotes opts a i /\ v = None
  | Plain _ => False
  end.
Definition mentions (opts : list opt) (it : item) (i : Z) : Prop := exists v, gives opts it i v.

(** The item is as its option wants it, and is not "help". *)
Definition item_ok (opts : list opt) (it : item) : Prop :=
  match it with
  | GivenEq _ a _ => exists i o, denotes opts a i /\ znth opts i = Some o /\ ~ is_flag o /\ p_name o <> str "help"
  | GivenNext _ a _ => a <> [] /\ exists i o, denotes opts a i /\ znth opts i = Some o /\ ~ is_flag o /\ p_name o <> str "help"
  | Flagged _ a => a <> [] /\ exists i o, denotes opts a i /\ znth opts i = Some o /\ is_flag o /\ p_name o <> str "help"
  | Plain w => plain_word w
  end.

(** The value of option i after the line: the last one given, otherwise the
    default. *)
Definition has_value (opts : list opt) (items : list item) (i : Z) (v : option chars) : Prop :=
  (exists pre it post, items = pre ++ it :: post /\ gives opts it i v /\ forall it', In it' post -> ~ mentions opts it' i) \/
  ((forall it, In it items -> ~ mentions opts it i) /\ exists o, znth opts i = Some o /\ v = p_default o).

(** The words that are not options *)
Fixpoint plains (items : list item) : list chars :=
  match items with
  | [] => []
  | Plain w :: r => w :: plains r
  | _ :: r => plains r
  end.
Definition rest_words (items : list item) (tail : option (list chars)) : list chars :=
  plains items ++ match tail with None => [] | Some ws => ws end.

(** A required option that is not on the line *)
Definition missing (opts : list opt) (items : list item) (i : Z) : Prop :=
  exists o, znth opts i = Some o /\ p_req o = true /\ forall it, In it items -> ~ mentions opts it i.

(** The value of the option with this name *)
Definition value_of (opts : list opt) (its : list item) (n : string) (v : option chars) : Prop :=
  exists i o, znth opts i = Some o /\ p_name o = str n /\ has_value opts its i v.
