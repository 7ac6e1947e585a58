(** Lines that the commands of ipu refuse (C83): proofs. *)
From Coq Require Import String.
From Verif Require Import Base Lists Cstr_Model Util_Proofs Opt_Model Opt_Spec Opt_Proofs Opt2_Proofs Ipu_Model Ipu_Spec Ipu_Proofs.

Lemma linklocal_table : table_ok linklocalOpts.
Proof. apply table_okb. vm_compute. reflexivity. Qed.

Lemma commands_refuse opts f wrap L ws : In (opts, f) commands -> parseOptions opts ws = Ok Refused -> f wrap L ws = Ok (1, []).
Proof.
  intros I P. cbn [commands In] in I.
  destruct I as [E|[E|[E|[]]]]; injection E as <- <-; unfold cmdLinklocal, cmdMakeip, cmdContains, ipuOptions; rewrite P; reflexivity.
Qed.
Lemma commands_help opts f wrap L ws : In (opts, f) commands -> parseOptions opts ws = Ok Help -> f wrap L ws = Ok (0, []).
Proof.
  intros I P. cbn [commands In] in I.
  destruct I as [E|[E|[E|[]]]]; injection E as <- <-; unfold cmdLinklocal, cmdMakeip, cmdContains, ipuOptions; rewrite P; reflexivity.
Qed.
Lemma commands_table opts f : In (opts, f) commands -> table_ok opts.
Proof.
  intros I. cbn [commands In] in I.
  destruct I as [E|[E|[E|[]]]]; injection E as <- <-; [apply linklocal_table|apply makeip_table|apply contains_table].
Qed.

Lemma no_cidr wrap L its tail :
  (Forall (item_ok makeipOpts) its -> ~ on_line makeipOpts its "cidr" -> cmdMakeip wrap L (line its tail) = Ok (1, [])) /\
  (Forall (item_ok containsOpts) its -> ~ on_line containsOpts its "cidr" -> cmdContains wrap L (line its tail) = Ok (1, [])).
Proof.
  split; intros F N.
  - apply (commands_refuse makeipOpts cmdMakeip); [right; left; reflexivity|]. apply (line_missing _ _ _ 1); [apply makeip_table|exact F|].
    exists (must "cidr"). split; [reflexivity|]. split; [reflexivity|]. intros it K M. apply N. exists it, 1, (must "cidr"). auto.
  - apply (commands_refuse containsOpts cmdContains); [right; right; left; reflexivity|]. apply (line_missing _ _ _ 1); [apply contains_table|exact F|].
    exists (must "cidr"). split; [reflexivity|]. split; [reflexivity|]. intros it K M. apply N. exists it, 1, (must "cidr"). auto.
Qed.

Lemma unknown_option opts f wrap L its w more : In (opts, f) commands -> Forall (item_ok opts) its -> no_option opts w ->
  f wrap L (concat (map words_of its) ++ w :: more) = Ok (1, []).
Proof.
  intros I F (P & D & U). apply (commands_refuse opts); [exact I|]. apply unknown_read; auto. eapply commands_table; eauto.
Qed.
Lemma value_missing opts f wrap L its two a i o : In (opts, f) commands -> Forall (item_ok opts) its -> a <> [] -> denotes opts a i ->
  znth opts i = Some o -> ~ is_flag o -> f wrap L (concat (map words_of its) ++ [dashes two ++ a]) = Ok (1, []).
Proof. intros I F A D Z NF. apply (commands_refuse opts); [exact I|]. eapply absent_read; eauto. eapply commands_table; eauto. Qed.
