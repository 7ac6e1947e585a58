(** What a flow request should be, said without the reader's code. *)
From Coq Require Import String.
From Verif Require Import Base Cstr_Model Util_Spec Remote_Model.

(** The fields of a request. *)
Definition fields : list chars :=
  map str ["action"; "name"; "target"; "priority"; "protocols"; "dports"; "sports";
           "dsts"; "srcs"; "match"; "udpencap"]%string.

(** A value that fits on a line: no newline, no 0, and a line of at most
    1022 characters with the field's name. *)
Definition line_ok (f v : chars) : Prop :=
  ~ In 10 v /\ ~ In 0 v /\ zlen f + 1 + zlen v <= 1022.

(** The text of a request. *)
Definition lines (l : list (chars * chars)) : chars :=
  concat (map (fun fv : chars * chars => fst fv ++ str ":" ++ snd fv ++ [10]) l).
Definition request (l : list (chars * chars)) : chars := lines l ++ str "eoc:" ++ [10].

(** The value given for a field. *)
Fixpoint given_value (f : chars) (l : list (chars * chars)) : option chars :=
  match l with
  | [] => None
  | (g, v) :: l' => if list_eq_dec Z.eq_dec f g then Some v else given_value f l'
  end.

(** The list of items in a value: its pieces without leading blanks; a value
    without pieces is no list. *)
Definition items (d : chars) (v : option chars) (r : option (list chars)) : Prop :=
  match v with
  | None => r = None
  | Some v =>
      exists l, pieces d v l /\
        match r with
        | None => l = []
        | Some a => l <> [] /\ Forall2 trimmed l a
        end
  end.

Definition number (v : option chars) : Z := match v with Some v => atoi v | None => 0 end.

(** The server's command c is the request l. *)
Definition decoded (l : list (chars * chars)) (c : flowcmd) : Prop :=
  c_action c = given_value (str "action") l /\
  c_name c = given_value (str "name") l /\
  c_target c = given_value (str "target") l /\
  c_priority c = number (given_value (str "priority") l) /\
  items (str ", ") (given_value (str "protocols") l) (c_protocols c) /\
  c_dports c = given_value (str "dports") l /\
  c_sports c = given_value (str "sports") l /\
  items (str ", ") (given_value (str "dsts") l) (c_dsts c) /\
  items (str ", ") (given_value (str "srcs") l) (c_srcs c) /\
  items (str ",") (given_value (str "match") l) (c_match c) /\
  c_udpencap c = number (given_value (str "udpencap") l) mod 65536.

(** The fields the client was asked to send. *)
Definition given_opt (f : string) (v : option chars) : list (chars * chars) :=
  match v with Some v => [(str f, v)] | None => [] end.
Definition set_request (o : setopts) : list (chars * chars) :=
  (str "action", str "set") :: (str "name", o_name o) :: (str "target", o_target o) ::
  given_opt "priority" (o_prio o) ++ given_opt "protocols" (o_protocols o) ++
  given_opt "dsts" (o_dsts o) ++ given_opt "srcs" (o_srcs o) ++
  given_opt "dports" (o_dports o) ++ given_opt "sports" (o_sports o) ++
  given_opt "match" (o_match o) ++ given_opt "udpencap" (o_udpencap o).

(** All option values free of newlines and 0; the three values the client
    does not check are short. *)
Definition plain (v : chars) : Prop := ~ In 10 v /\ ~ In 0 v.
Definition plain_opt (v : option chars) : Prop := match v with Some v => plain v | None => True end.
Definition short_opt (v : option chars) : Prop := match v with Some v => zlen v <= 1000 | None => True end.
Definition opts_ok (o : setopts) : Prop :=
  plain (o_name o) /\ plain (o_target o) /\ plain_opt (o_prio o) /\ plain_opt (o_protocols o) /\
  plain_opt (o_dsts o) /\ plain_opt (o_srcs o) /\ plain_opt (o_dports o) /\ plain_opt (o_sports o) /\
  plain_opt (o_match o) /\ plain_opt (o_udpencap o) /\
  zlen (o_name o) <= 1000 /\ short_opt (o_prio o) /\ short_opt (o_udpencap o).

(** p occurs in s *)
Definition occurs (p s : chars) : Prop := exists a b, s = a ++ p ++ b.
