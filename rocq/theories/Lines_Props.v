(** Lines on the tables of a host (C76). *)
From Coq Require Import String Znumtheory Lia.
From Verif Require Import Base Lists Cstr_Model Rangeset_Model Rangeset_Spec Maglev_Model Config_Model Maglev_Spec Maglev_Props Opt_Model Opt_Spec Start_Spec Shm_Model Shm_Spec
  Lines_Model Lines_Spec Lines_Proofs Lines2_Proofs Lines3_Proofs.

(** ** C76

    Any history of lines (of init, activate, deactivate, delete and show, as a user
    may write them), of processes that map tables and look hashes up: exit statuses,
    printed texts and fwmarks are those of the specification, a map from names to
    tables.  For M <= 65536, tables below 2^31 bytes and without errors of write; a
    process whose table is made anew under its feet is not followed further
    (C71_init_in_use_refuted). *)
Theorem C76_lines_partial : forall vs ws w os, Forall2 is_event vs ws -> happen start ws w os -> exists h, hdos emptyFs vs = Ok (h, os).
Proof. exact table_lines. Qed.
Print Assumptions C76_lines_partial.

(** And the specification says what happens next, whatever has happened. *)
Theorem C76_answers : forall vs ws w os a v, Forall2 is_event vs ws -> happen start ws w os -> is_event a v -> sound w v -> exists w' o, happens w v w' o.
Proof. exact next_answer. Qed.
Print Assumptions C76_answers.

Definition ex_env : ienv := mkIE (repeat 165 148) [Wrote 152] ex_rand.
Definition ex_events : list hevent :=
  [ELine ex_env [str "init"; str "--M=8"; str "-N"; str "3"]; ELine ex_env [str "activate"; str "--ind=1"; str "5"]; EMap 0 (str "nfqlb"); ELook 0 3;
   ELine ex_env [str "delete"; str "--shm=/nfqlb"]; ELine ex_env [str "activate"; str "6"]; ELook 0 10].
Definition ex_asked : list wevent :=
  [VLine ex_env (RInit (str "nfqlb") 0 8 3); VLine ex_env (RCmd (str "nfqlb") (ActivateIdx 1 5)); VMap 0 (str "nfqlb"); VLook 0 3;
   VLine ex_env (RDelete (str "nfqlb")); VLine ex_env (RCmd (str "nfqlb") (Activate [6])); VLook 0 10].
Definition ex_made : made := mkMade 0 8 3 ex_rand [ActivateIdx 1 5].

Lemma ex_obj : object (str "nfqlb") (str "nfqlb").
Proof. exists O. split; [reflexivity|]. split; [discriminate|]. split; [|vm_compute; discriminate]. cbn. intuition discriminate. Qed.
Lemma ex_num v : 0 <= v < 10 -> is_num [48 + v] v.
Proof. intros B. split; [lia|]. left. split; [discriminate|]. split; [repeat constructor; lia|]. split; [change (0 * 10 + (48 + v - 48) = v); lia|]. cbn [hd]. intros H. replace v with 0 by lia. reflexivity. Qed.
Ltac denoted := eexists; split; [reflexivity|]; first [left; reflexivity|
  right; split; [cbn; intuition discriminate|]; split; [eexists; reflexivity|]; intros j o' J (b & B);
  pose proof (znth_some_range _ _ _ _ J) as R; cbn in R; assert (j = 0 \/ j = 1 \/ j = 2) as [->|[->| ->]] by lia; cbn in J; injection J as <-; try reflexivity; discriminate B].
Ltac unmentioned := right; split; [|eexists; split; reflexivity]; intros it I (y & Y); cbn in I; decompose [or] I; subst; try contradiction; cbn in Y; try contradiction;
  destruct Y as ((o & O1 & [O2|(_ & (b & O2) & _)]) & _); cbn in O1; injection O1 as <-; discriminate O2.

Definition ex_its : list item := [GivenEq true (str "M") (str "8"); GivenNext false (str "N") (str "3")].
Lemma ex_asks : Forall2 is_event ex_events ex_asked.
Proof.
  constructor; [|constructor; [|constructor; [|constructor; [|constructor; [|constructor; [|constructor; [|constructor]]]]]]]; cbn [is_event]; (split; [reflexivity|]).
  - apply (a_init ex_its None); try lia.
    + split; [|exists (str "nfqlb"); split; [|exact ex_obj]].
      * constructor; [|constructor; [|constructor]]; cbn [item_ok]; [|split; [discriminate|]]; [exists 4|exists 3]; eexists; (split; [denoted|]); (split; [reflexivity|]);
          (split; [intros [H|H]; discriminate|discriminate]).
      * exists 2. eexists. split; [reflexivity|]. split; [reflexivity|]. unmentioned.
    + exists (str "0"). split; [|apply (ex_num 0); lia]. exists 1. eexists. split; [reflexivity|]. split; [reflexivity|]. unmentioned.
    + exists (str "8"). split; [|apply (ex_num 8); lia]. exists 4. eexists. split; [reflexivity|]. split; [reflexivity|]. left. exists [], (GivenEq true (str "M") (str "8")), [GivenNext false (str "N") (str "3")].
      split; [reflexivity|]. split; [split; [denoted|reflexivity]|]. intros it [<-|[]] (y & (o & O1 & [O2|(_ & (b & O2) & _)]) & _); cbn in O1; injection O1 as <-; discriminate O2.
    + exists (str "3"). split; [|apply (ex_num 3); lia]. exists 3. eexists. split; [reflexivity|]. split; [reflexivity|]. left. exists [GivenEq true (str "M") (str "8")], (GivenNext false (str "N") (str "3")), [].
      split; [reflexivity|]. split; [split; [denoted|reflexivity]|]. intros it [].
  - apply (a_activate_at [GivenEq true (str "ind") (str "1"); Plain (str "5")] None _ 1 (str "5") 5); [|..|reflexivity|apply (ex_num 5); lia].
    + split; [|exists (str "nfqlb"); split; [|exact ex_obj]].
      * constructor; [|constructor; [exact I|constructor]]; cbn [item_ok]. exists 2. eexists. split; [denoted|]. split; [reflexivity|]. split; [intros [H|H]; discriminate|discriminate].
      * exists 1. eexists. split; [reflexivity|]. split; [reflexivity|]. unmentioned.
    + exists (str "1"). split; [|apply (ex_num 1); lia]. exists 2. eexists. split; [reflexivity|]. split; [reflexivity|]. left. exists [], (GivenEq true (str "ind") (str "1")), [Plain (str "5")].
      split; [reflexivity|]. split; [split; [denoted|reflexivity]|]. intros it [<-|[]] (y & []).
  - exact ex_obj.
  - reflexivity.
  - apply (a_delete [GivenEq true (str "shm") (str "/nfqlb")] None). split; [|exists (str "/nfqlb"); split].
    + constructor; [|constructor]. exists 1. eexists. split; [denoted|]. split; [reflexivity|]. split; [intros [H|H]; discriminate|discriminate].
    + exists 1. eexists. split; [reflexivity|]. split; [reflexivity|]. left. exists [], (GivenEq true (str "shm") (str "/nfqlb")), []. split; [reflexivity|]. split; [split; [denoted|reflexivity]|]. intros it [].
    + destruct ex_obj as (_ & _ & A). exists 1%nat. split; [reflexivity|exact A].
  - apply (a_activate [Plain (str "6")] None _ [6]).
    + split; [|exists (str "nfqlb"); split; [|exact ex_obj]]; [constructor; [exact I|constructor]|]. exists 1. eexists. split; [reflexivity|]. split; [reflexivity|]. unmentioned.
    + exists 2. eexists. split; [reflexivity|]. split; [reflexivity|]. unmentioned.
    + constructor; [apply (ex_num 6); lia|constructor].
  - reflexivity.
Qed.
Lemma ex_size : size_of 8 7.
Proof.
  assert (P7 : prime 7). { apply prime_intro; [lia|]. intros n N. assert (n = 1 \/ n = 2 \/ n = 3 \/ n = 4 \/ n = 5 \/ n = 6) as H by lia. apply Zgcd_1_rel_prime. decompose [or] H; subst; reflexivity. }
  split; [exact P7|]. split; [lia|]. intros q Q L. assert (q <> 8). { intros ->. assert (D : (2 | 8)) by (exists 4; reflexivity). apply (prime_divisors 8 Q) in D. lia. } lia.
Qed.
Lemma ex_table : exists s, table_of ex_made s /\ target s 3 5 /\ target s 10 5.
Proof.
  assert (H : match cmdInit 8 3 ex_rand with Ok s0 => match run_hist s0 [ActivateIdx 1 5] with Ok s => znth (mlookup s) (3 mod mM s) = Some 1 /\ znth (mlookup s) (10 mod mM s) = Some 1 /\ znth (mactive s) 1 = Some 5 | _ => False end | _ => False end).
  { vm_compute. auto. }
  destruct (cmdInit 8 3 ex_rand) as [s0| | |] eqn:E; try contradiction. destruct (run_hist s0 [ActivateIdx 1 5]) as [s| | |] eqn:E2; try contradiction. destruct H as (A & B & C).
  exists s. split; [exists s0; split; [exact E|exact E2]|]. split; [exists 1|exists 1]; (split; [assumption|]); right; (split; [lia|exact C]).
Qed.
Example C76_ex : exists w, happen start ex_asked w
  [OLine 0 (str "M adjusted; 8 -> 7" ++ [10]); OLine 0 []; OMap true; OLook (Some 5); OLine 0 []; OLine 1 []; OLook (Some 5)].
Proof.
  destruct ex_table as (s & T & T3 & T10). eexists.
  eapply hs_cons. { eapply (h_init start ex_env _ 0 8 3 7 ex_size); [lia|]. split; [lia|]. split; [vm_compute; reflexivity|]. split; [vm_compute; discriminate|]. split; [right; split; [lia|]; left; reflexivity|].
    intros k. unfold ex_env, ie_rand, ex_rand. do 6 (destruct k as [|k]; [cbn; lia|]). cbn. destruct k; lia. }
  eapply hs_cons. { eapply h_cmd; [cbn; reflexivity|cbn; lia]. }
  eapply hs_cons. { eapply h_map. cbn. reflexivity. }
  eapply hs_cons. { eapply (h_look _ 0 3 (str "nfqlb") ex_made s 5); [reflexivity|reflexivity|exact T|lia|exact T3]. }
  eapply hs_cons. { eapply (h_delete _ _ _ ex_made). reflexivity. }
  eapply hs_cons. { eapply h_cmd_none. reflexivity. }
  eapply hs_cons. { eapply (h_look_kept _ 0 10 ex_made s 5); [reflexivity|exact T|lia|exact T10]. }
  constructor.
Qed.
Example C76_ex2 : exists h, hdos emptyFs ex_events =
  Ok (h, [OLine 0 (str "M adjusted; 8 -> 7" ++ [10]); OLine 0 []; OMap true; OLook (Some 5); OLine 0 []; OLine 1 []; OLook (Some 5)]).
Proof. destruct C76_ex as (w & H). exact (C76_lines_partial _ _ _ _ ex_asks H). Qed.

(** A process that has mapped a table keeps its answers for ever once the table is
    deleted, whatever lines follow: a table of the same name is another one. *)
Theorem C76_deleted : forall vs1 vs2 vs3 k shm x e ws h1 os1 h2 os2 hash, object shm x -> asks ws (RDelete x) -> quiet k vs2 -> quiet k vs3 ->
  hdos emptyFs (vs1 ++ EMap k shm :: vs2 ++ [ELine e ws]) = Ok (h1, os1) -> hdos h1 vs3 = Ok (h2, os2) ->
  omap snd (hdo h2 (ELook k hash)) = omap snd (hdo h1 (ELook k hash)).
Proof. exact deleted_table. Qed.
Print Assumptions C76_deleted.

Definition outs (r : outcome (shmfs * list hobs)) : option (list hobs) := match r with Ok (_, os) => Some os | _ => None end.
Example C76_deleted_ex : outs (hdos emptyFs
  [ELine ex_env [str "init"; str "--M=7"; str "--N=3"]; ELine ex_env [str "activate"; str "5"]; EMap 0 (str "nfqlb"); ELine ex_env [str "delete"; str "--shm=nfqlb"];
   ELine ex_env [str "init"; str "--M=7"; str "--N=3"]; ELine ex_env [str "activate"; str "8"]; EMap 1 (str "nfqlb"); ELook 0 3; ELook 1 3]) =
  Some [OLine 0 []; OLine 0 []; OMap true; OLine 0 []; OLine 0 []; OLine 0 []; OMap true; OLook (Some 5); OLook (Some 8)].
Proof. vm_compute. reflexivity. Qed.

(** A line, however it is written, changes at most one object, and only one that its
    option --shm names; mappings stay. *)
Theorem C76_one_object : forall vs h os e ws h' st out, hdos emptyFs vs = Ok (h, os) -> exec e h ws = Ok (h', st, out) -> s_map h' = s_map h /\
  exists x, (h' = h \/ names_object ws x) /\ forall y, y <> x -> s_ino h' y = s_ino h y /\ forall i, s_ino h y = Some i -> s_data h' i = s_data h i.
Proof. exact one_object. Qed.
Print Assumptions C76_one_object.

(** primebelow prints what it should (C01). *)
Theorem C76_primebelow : forall e h w v, is_num w v -> 2 <= v -> exists p, exec e h [str "primebelow"; w] = Ok (h, 0, dec p ++ [10]) /\
  prime p /\ p <= Z.min v 994009 /\ forall q, prime q -> q <= Z.min v 994009 -> q <= p.
Proof. exact prime_line. Qed.
Print Assumptions C76_primebelow.
Example C76_primebelow_ex : is_num (str "8") 8.
Proof. exact (ex_num 8 ltac:(lia)). Qed.

(** A word that is no number is fwmark 0, without an error. *)
Theorem C76_text_refuted : forall e h c r, 65 <= c <= 90 \/ 97 <= c <= 122 ->
  exec e h [str "activate"; c :: r] = exec e h [str "activate"; str "0"].
Proof. exact word_is_zero. Qed.
Print Assumptions C76_text_refuted.

Example C76_text_ex : outs (hdos emptyFs
  [ELine ex_env [str "init"; str "--M=7"; str "--N=3"]; ELine ex_env [str "activate"; str "foo"]; EMap 0 (str "nfqlb"); ELook 0 3]) =
  Some [OLine 0 []; OLine 0 []; OMap true; OLook (Some 0)].
Proof. vm_compute. reflexivity. Qed.

(** Fwmarks from 2^31 to 2^32-1 are accepted, with exit status 0, and nothing
    happens: show prints the same, and no hash changes its target. *)
Theorem C76_large_mark_refuted : forall vs ws w os x t its tail d fw e, Forall2 is_event vs ws -> happen start ws w os -> w_tab w x = Some t ->
  table_named configOpts its x -> no_index its -> rest_words its tail = [d] -> is_dec d fw -> 2147483648 <= fw < 4294967296 ->
  exists h h', hdos emptyFs vs = Ok (h, os) /\ hdo h (ELine e (str "activate" :: line its tail)) = Ok (h', OLine 0 []) /\
    forall a, looks w a -> omap snd (hdo h' a) = omap snd (hdo h a).
Proof. exact large_mark. Qed.
Print Assumptions C76_large_mark_refuted.

Example C76_large_ex : outs (hdos emptyFs
  [ELine ex_env [str "init"; str "--M=7"; str "--N=3"]; ELine ex_env [str "activate"; str "2147483648"]; EMap 0 (str "nfqlb"); ELook 0 3;
   ELine ex_env [str "activate"; str "2147483647"]; ELook 0 3]) =
  Some [OLine 0 []; OLine 0 []; OMap true; OLook (Some (-1)); OLine 0 []; OLook (Some 2147483647)].
Proof. vm_compute. reflexivity. Qed.

(** With --index, activate without fwmark does nothing, and one with two fwmarks
    takes the first; both end well. *)
Theorem C76_index_refuted :
  outs (hdos emptyFs [ELine ex_env [str "init"; str "--M=7"; str "--N=3"]; ELine ex_env [str "activate"; str "--index=1"]; EMap 0 (str "nfqlb"); ELook 0 3;
                      ELine ex_env [str "activate"; str "--index=1"; str "5"; str "6"]; ELook 0 0; ELook 0 1; ELook 0 2; ELook 0 3; ELook 0 4; ELook 0 5; ELook 0 6]) =
  Some [OLine 0 []; OLine 0 []; OMap true; OLook (Some (-1)); OLine 0 []; OLook (Some 5); OLook (Some 5); OLook (Some 5); OLook (Some 5); OLook (Some 5); OLook (Some 5); OLook (Some 5)].
Proof. vm_compute. reflexivity. Qed.
Print Assumptions C76_index_refuted.
