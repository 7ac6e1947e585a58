(** C68: command line options; C69: the queues served; C70: flow-set command lines. *)
From Coq Require Import String.
From Verif Require Import Base Cstr_Model Rangeset_Spec Remote_Model Remote_Spec Opt_Model Opt_Spec Opt_Proofs FlowSet_Spec Opt2_Proofs OptDoc_Spec OptDoc_Proofs.

(** ** C68

    A line of options and words, where no required option is missing: each
    option has the value given last, or its default; the other words are left
    in their order. *)
Theorem C68_line : forall opts items tail,
  table_ok opts -> Forall (item_ok opts) items -> (forall i, ~ missing opts items i) ->
  exists vals, parseOptions opts (line items tail) = Ok (Parsed vals (rest_words items tail)) /\ zlen vals = zlen opts /\
    forall i v, znth vals i = Some v -> has_value opts items i v.
Proof. exact line_read. Qed.
Print Assumptions C68_line.

(** There is only one such value. *)
Theorem C68_one_value : forall opts items i v w,
  table_ok opts -> has_value opts items i v -> has_value opts items i w -> v = w.
Proof. exact value_unique. Qed.
Print Assumptions C68_one_value.

(** A line without a required option is refused. *)
Theorem C68_required : forall opts items tail i,
  table_ok opts -> Forall (item_ok opts) items -> missing opts items i -> parseOptions opts (line items tail) = Ok Refused.
Proof. exact line_missing. Qed.
Print Assumptions C68_required.

(** "--help", also abbreviated, after good options: help, whatever follows. *)
Theorem C68_help : forall opts items two a i o more,
  table_ok opts -> Forall (item_ok opts) items -> a <> [] -> denotes opts a i -> znth opts i = Some o -> is_flag o -> p_name o = str "help" ->
  parseOptions opts (concat (map words_of items) ++ (dashes two ++ a) :: more) = Ok Help.
Proof. exact help_read. Qed.
Print Assumptions C68_help.

(** An unknown or ambiguous name, a value for a flag, an option without its
    value: the line is refused. *)
Theorem C68_unknown : forall opts items w more,
  table_ok opts -> Forall (item_ok opts) items -> ~ plain_word w -> w <> str "--" ->
  (forall two a v i, w = dashes two ++ a \/ w = dashes two ++ a ++ 61 :: v -> ~ denotes opts a i) ->
  parseOptions opts (concat (map words_of items) ++ w :: more) = Ok Refused.
Proof. exact unknown_read. Qed.
Print Assumptions C68_unknown.
Theorem C68_flag_value : forall opts items two a v i o more,
  table_ok opts -> Forall (item_ok opts) items -> denotes opts a i -> znth opts i = Some o -> is_flag o ->
  parseOptions opts (concat (map words_of items) ++ (dashes two ++ a ++ 61 :: v) :: more) = Ok Refused.
Proof. exact extra_read. Qed.
Print Assumptions C68_flag_value.
Theorem C68_no_value : forall opts items two a i o,
  table_ok opts -> Forall (item_ok opts) items -> a <> [] -> denotes opts a i -> znth opts i = Some o -> ~ is_flag o ->
  parseOptions opts (concat (map words_of items) ++ [dashes two ++ a]) = Ok Refused.
Proof. exact absent_read. Qed.
Print Assumptions C68_no_value.

(** Nothing else is accepted: whatever the words, if they are accepted they
    are such a line and its values are those said above. *)
Theorem C68_accepted : forall opts words vals rest,
  table_ok opts -> parseOptions opts words = Ok (Parsed vals rest) ->
  exists items tail, words = line items tail /\ Forall (item_ok opts) items /\ (forall i, ~ missing opts items i) /\
    rest = rest_words items tail /\ zlen vals = zlen opts /\ forall i v, znth vals i = Some v -> has_value opts items i v.
Proof. exact accepted_line. Qed.
Print Assumptions C68_accepted.

(** The tables of all commands are usable. *)
Theorem C68_tables : Forall table_ok tables.
Proof. exact tables_all_ok. Qed.
Print Assumptions C68_tables.

(** An option that is not on the line has the default users rely on, or none; without a required
    one the line is refused. *)
Theorem C68_absent : forall opts ds n a its tail,
  In (opts, ds) if_absent -> In (n, a) ds -> Forall (item_ok opts) its -> ~ on_line opts its n ->
  match a with
  | Default s => value_of opts its n (Some (str s))
  | Nothing => value_of opts its n None
  | Needed => parseOptions opts (line its tail) = Ok Refused
  end.
Proof. exact absent_ok. Qed.
Print Assumptions C68_absent.
Example C68_absent_ex : In (fwmarkOpts, [("shm", Nothing); ("proto", Nothing); ("src", Needed); ("dst", Needed); ("hash_mode", Default "1")]%string) if_absent /\
  Forall (item_ok fwmarkOpts) [GivenEq true (str "src") (str "1.1.1.1")] /\ ~ on_line fwmarkOpts [GivenEq true (str "src") (str "1.1.1.1")] "dst".
Proof.
  assert (T : table_ok fwmarkOpts) by (apply table_okb; vm_compute; reflexivity).
  assert (D : denotes fwmarkOpts (str "src") 3) by (apply findOpt_denotes; [exact T|reflexivity]).
  split; [do 7 right; left; reflexivity|]. split.
  - constructor; [|constructor]. exists 3, (must "src"). repeat split; [exact D|intros [H|H]; discriminate|discriminate].
  - intros (it & i & o & [<-|[]] & Z & N & v & G). cbn [gives] in G. destruct G as [G _]. pose proof (denotes_fun _ _ _ _ T D G). subst i.
    assert (K : Some o = Some (must "src")) by (rewrite <- Z; reflexivity). injection K as ->. discriminate N.
Qed.

(** flowlb with values in all ways, an abbreviation, a flag, a word between
    and a value given twice *)
Definition ex_items : list item :=
  [GivenEq true (str "queue") (str "0:3"); Plain (str "word"); GivenNext false (str "qlen") (str "-5"); Flagged true (str "promiscuous_ping");
   GivenEq true (str "queue") (str "1:2")].
Example C68_ex : parseOptions flowlbOpts (line ex_items (Some [str "--mtu=1"])) =
  Ok (Parsed [None; None; Some (str "1500"); None; Some (str "0"); None; Some (str "-1"); Some (str "-1"); Some (str "1"); Some (str "1:2");
      Some (str "-5"); Some (str "ftshm"); Some (str "500"); Some (str "500"); Some (str "100"); Some (str "200"); Some (str "unix:nfqlb-trace")]
      [str "word"; str "--mtu=1"]).
Proof. vm_compute. reflexivity. Qed.
Example C68_ex_items : Forall (item_ok flowlbOpts) ex_items.
Proof.
  assert (T : table_ok flowlbOpts) by (apply table_okb; vm_compute; reflexivity).
  assert (NF : forall o, takesArg o = true -> ~ is_flag o) by (intros o H; rewrite flag_takes; congruence).
  repeat constructor; cbn [item_ok].
  - exists 9, (val "queue" "2"). split; [apply findOpt_denotes; [exact T|reflexivity]|]. repeat split; [apply NF; reflexivity|discriminate].
  - discriminate.
  - exists 10, (val "qlength" "1024"). split; [apply findOpt_denotes; [exact T|reflexivity]|]. repeat split; [apply NF; reflexivity|discriminate].
  - discriminate.
  - exists 5, (val "promiscuous_ping" "no"). split; [apply findOpt_denotes; [exact T|reflexivity]|]. repeat split; [right; reflexivity|discriminate].
  - exists 9, (val "queue" "2"). split; [apply findOpt_denotes; [exact T|reflexivity]|]. repeat split; [apply NF; reflexivity|discriminate].
Qed.
(** "--ft_s=1" is ambiguous; "--name" is missing *)
Example C68_ex_refused : parseOptions flowlbOpts [str "--ft_s=1"] = Ok Refused /\ parseOptions flowSetOpts [str "--target=t"] = Ok Refused /\
  parseOptions flowSetOpts [str "--target=t"; str "-h"; str "--bad"] = Ok Help.
Proof. repeat split; reflexivity. Qed.

(** ** C69

    "a:b" with a <= b: each of the queues a to b is served, once; with b < a
    the program ends.  "a": that queue. *)
Theorem C69_range : forall d n e m,
  is_dec d n -> is_dec e m -> is_u32 n -> is_u32 m -> n <= m ->
  exists l, queues (d ++ str ":" ++ e) = Ok l /\ NoDup l /\ (forall q, In q l <-> n <= q <= m).
Proof. exact queue_range. Qed.
Print Assumptions C69_range.
Theorem C69_backwards : forall d n e m,
  is_dec d n -> is_dec e m -> is_u32 n -> is_u32 m -> m < n -> queues (d ++ str ":" ++ e) = Die.
Proof. exact queue_wrong. Qed.
Print Assumptions C69_backwards.
Theorem C69_one : forall d n, is_dec d n -> n <= 2147483647 -> queues d = Ok [n].
Proof. exact queue_one. Qed.
Print Assumptions C69_one.
Theorem C69_some : forall s l, queues s = Ok l -> l <> [].
Proof. exact queue_some. Qed.
Print Assumptions C69_some.
Example C69_ex : queues (str "0:3") = Ok [0; 1; 2; 3] /\ queues (str "7") = Ok [7] /\ queues (str "3:0") = Die /\ queues (str "1:") = Die.
Proof. repeat split; reflexivity. Qed.

(** A text that is no number or range is not refused: queue 0 is served for
    "two", 1 for "1-3", and 4294967295 for "-1". *)
Theorem C69_checked_refuted :
  queues (str "two") = Ok [0] /\ queues (str "1-3") = Ok [1] /\ queues (str "-1") = Ok [4294967295] /\ queues (str "1:2x") = Ok [1; 2].
Proof. repeat split; reflexivity. Qed.
Print Assumptions C69_checked_refuted.

(** ** C70

    What flow-set sends for a command line the server reads as what the
    options on the line say. *)
Theorem C70_flow_set : forall its tail s rest,
  Forall (item_ok flowSetOpts) its -> sendable its tail -> flowSetLine (line its tail) = Ok (Some s) ->
  exists c, readFlowCmd (s ++ rest) = Ok (Some (c, rest)) /\ asked its c.
Proof. exact flow_set_line. Qed.
Print Assumptions C70_flow_set.

(** Something is sent for such lines only. *)
Theorem C70_sent : forall words s, flowSetLine words = Ok (Some s) ->
  exists its tail, words = line its tail /\ Forall (item_ok flowSetOpts) its /\ forall i, ~ missing flowSetOpts its i.
Proof. exact flow_set_sent. Qed.
Print Assumptions C70_sent.

Definition ex_line : list item :=
  [GivenEq true (str "name") (str "f"); GivenNext true (str "targ") (str "t"); GivenEq false (str "protocols") (str "tcp,udp"); GivenEq true (str "dports") (str "80")].
Example C70_ex : exists s c, flowSetLine (line ex_line None) = Ok (Some s) /\ readFlowCmd s = Ok (Some (c, [])) /\
  c_name c = Some (str "f") /\ c_target c = Some (str "t") /\ c_protocols c = Some [str "tcp"; str "udp"] /\ c_dports c = Some (str "80").
Proof. eexists. eexists. split; [vm_compute; reflexivity|]. split; [vm_compute; reflexivity|]. repeat split; reflexivity. Qed.

(** Without the restriction on the values it is not so: a newline in a name
    adds a field, so a priority is set that no option gives; and a name of
    1020 characters is sent but the server reads no request. *)
Definition ex_newline : list chars := [str "--target=t"; str "--name=f" ++ 10 :: str "priority:7"].
Theorem C70_newline_refuted : exists s c, flowSetLine ex_newline = Ok (Some s) /\ readFlowCmd s = Ok (Some (c, [])) /\ c_priority c = 7 /\
  c_name c = Some (str "f").
Proof. eexists. eexists. split; [vm_compute; reflexivity|]. split; [vm_compute; reflexivity|]. repeat split; reflexivity. Qed.
Print Assumptions C70_newline_refuted.
Theorem C70_long_name_refuted : exists s, flowSetLine [str "--target=t"; str "--name=" ++ repeat 97 (Z.to_nat 1020)] = Ok (Some s) /\ readFlowCmd s = Ok None.
Proof.
  assert (H : match flowSetLine [str "--target=t"; str "--name=" ++ repeat 97 (Z.to_nat 1020)] with Ok (Some s) => readFlowCmd s | _ => UB end = Ok None)
    by (vm_compute; reflexivity).
  destruct (flowSetLine _) as [[s|]| | |]; try discriminate. exists s. auto.
Qed.
Print Assumptions C70_long_name_refuted.
