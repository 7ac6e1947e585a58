(** The clients of flowlb: flow-set, flow-delete, flow-list, flow-list-names
    (src/nfqlb/cmdFlow.c) and trace-flow-set, trace-flow-delete,
    trace-flow-list, trace-flow-list-names (src/nfqlb/cmdTrace.c:116-261):
    what is sent for a command line, what is printed and the status.

    Simplifications: the connection is made (connectToLb, remoteCmd.c:87-103,
    ends the program otherwise) and takes what is sent; a read that fails is
    one of no bytes, which ends the loops in the same way. *)
From Coq Require Import String.
From Verif Require Import Base Cstr_Model Flow_Model Match_Model Remote_Model Opt_Model.

(** ** What is sent *)

(** cmdTraceFlowSet, cmdTrace.c:142-175, from the values of the options *)
Definition cmdTraceFlowSet (name : chars) (protocols dsts srcs dports sports match_ : option chars) : outcome chars :=
  if too_long protocols || too_long dsts || too_long srcs || too_long dports || too_long sports || too_long match_ then Die
  else if (given dports || given sports) && negb (given protocols) then Die
  else
    Ok (field_line (str "action") (str "trace-set") ++
        field_line (str "name") name ++
        opt_line (str "protocols") protocols ++
        opt_line (str "dsts") dsts ++
        opt_line (str "srcs") srcs ++
        opt_line (str "dports") dports ++
        opt_line (str "sports") sports ++
        opt_line (str "match") match_ ++
        str "eoc:" ++ [10]).

(** cmdTraceFlowDelete, cmdTrace.c:199-202; cmdTraceFlowList, 226-230;
    cmdTraceFlowListNames, 252-254 *)
Definition cmdTraceFlowDelete (name : chars) : chars :=
  field_line (str "action") (str "trace-delete") ++ field_line (str "name") name ++ str "eoc:" ++ [10].
Definition cmdTraceFlowList (name : option chars) : chars :=
  field_line (str "action") (str "trace-list") ++ opt_line (str "name") name ++ str "eoc:" ++ [10].
Definition cmdTraceFlowListNames : chars :=
  field_line (str "action") (str "trace-list-names") ++ str "eoc:" ++ [10].

Inductive client := FlowSet | FlowDelete | FlowList | FlowListNames | TraceSet | TraceDelete | TraceList | TraceListNames.

(** From the words behind the command, cmdFlow.c:41-89, 111-119, 140-149,
    166-173; cmdTrace.c:139-175, 196-202, 223-230, 247-254.  None: the program
    ends before sending (after help, or an error in the options). *)
Definition nameLine (sent : chars -> chars) (words : list chars) : outcome (option chars) :=
  do r <- parseOptions nameOpts words;
  match r with Parsed [_; Some name] _ => Ok (Some (sent name)) | _ => Ok None end.
Definition listLine (sent : option chars -> chars) (words : list chars) : outcome (option chars) :=
  do r <- parseOptions listOpts words;
  match r with Parsed [_; name] _ => Ok (Some (sent name)) | _ => Ok None end.
Definition plainLine (sent : chars) (words : list chars) : outcome (option chars) :=
  do r <- parseOptions noOpts words;
  match r with Parsed _ _ => Ok (Some sent) | _ => Ok None end.
Definition traceSetLine (words : list chars) : outcome (option chars) :=
  do r <- parseOptions traceSetOpts words;
  match r with
  | Parsed [_; Some name; protocols; dsts; srcs; dports; sports; match_] _ =>
      do s <- cmdTraceFlowSet name protocols dsts srcs dports sports match_; Ok (Some s)
  | _ => Ok None
  end.
Definition sends (k : client) (words : list chars) : outcome (option chars) :=
  match k with
  | FlowSet => flowSetLine words
  | FlowDelete => nameLine cmdFlowDelete words
  | FlowList => listLine cmdFlowList words
  | FlowListNames => plainLine cmdFlowListNames words
  | TraceSet => traceSetLine words
  | TraceDelete => nameLine cmdTraceFlowDelete words
  | TraceList => listLine cmdTraceFlowList words
  | TraceListNames => plainLine cmdTraceFlowListNames words
  end.

(** ** The end of the commands that set and delete *)

(** The characters up to the first 0; None: there is none *)
Fixpoint upTo0 (s : chars) : option chars :=
  match s with
  | [] => None
  | c :: s' => if c =? 0 then Some [] else match upTo0 s' with Some a => Some (c :: a) | None => None end
  end.

(** cmdFlow.c:91-98, 121-127, cmdTrace.c:177-184, 204-210: [junk] is what the
    64 bytes of buf were, [got] what read() put there.  printf("%s\n", buf)
    without a 0 in buf reads behind it. *)
Definition talkEnd (junk got : chars) : outcome (chars * Z) :=
  match got with
  | [] => Ok ([], -1)
  | _ =>
      match upTo0 (got ++ skipn (length got) junk) with
      | None => UB
      | Some s => Ok (s ++ [10], if prefix (str "OK") s then 0 else -1)
      end
  end.

(** ** The end of the commands that list *)

(** cmdFlow.c:150-155, 174-179, cmdTrace.c:231-236, 255-260: what each read()
    got (nothing: the end) and how many bytes the write() took (its result is
    not looked at); the status is 0. *)
Fixpoint copyOut (l : list (chars * Z)) : chars :=
  match l with
  | [] => []
  | ([], _) :: _ => []
  | (b, n) :: l' => firstn (Z.to_nat n) b ++ copyOut l'
  end.
Definition listEnd (l : list (chars * Z)) : chars * Z := (copyOut l, 0).

(** ** What the server answers *)

(** The text for a match that is refused, flow.c:220-221 and 266-273: err has
    128 bytes *)
Fixpoint matchText (m : list item) (l : list chars) : outcome chars :=
  match l with
  | [] => Ok []
  | s :: l' =>
      do r <- matchAdd m s;
      match r with
      | inl e => Ok (firstn 127 (str "Match [" ++ s ++ str "] " ++ str e))
      | inr m' => matchText m' l'
      end
  end.

(** The text for the reply [m] of Flow_Model.v and FlowLb_Model.v, where the
    one for a match is "Match" only *)
Definition replyText (c : flowcmd) (m : string) : outcome chars :=
  if String.eqb m "Match" then matchText matchCreate (match c_match c with Some l => l | None => [] end) else Ok (str m).

(** writeReply, cmdFlowLb.c:469-474: the text with its 0 *)
Definition written (t : chars) : chars := t ++ [0].
