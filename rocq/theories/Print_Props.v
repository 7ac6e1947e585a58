(** C65: the listing of flows shows the flows in force, as JSON. *)
From Coq Require Import String Sorted.
From Verif Require Import Base Cstr_Model Util_Spec Rangeset_Model Rangeset_Spec IpKey_Model IpKey_Spec Match_Model Match_Spec
  Flow_Model Flow_Spec Flow3_Proofs Print_Model Print_Spec Print4_Proofs Print5_Proofs.

(** ** C65

    After any history, provided that the definitions in force are listable
    and that addresses written by inet_ntop are read by inet_pton, the listing
    is a JSON array that shows these definitions and no others, those of
    higher priority first; each as a definition that would be accepted again
    and matches the same packets. *)
Theorem C65_listing_partial : forall L P ops set ans, libc_ok L -> ntop_ok L P -> clean_targets P ->
  run L [] ops = Ok (set, ans) ->
  (forall n a, current ops ans n = Some a -> typed a /\ listable a /\ no_wraps a) ->
  exists s vs, flowSetPrint P set None = Ok s /\ json_text s (JArr vs) /\ listing L (target P) (current ops ans) vs.
Proof. exact set_listed. Qed.
Print Assumptions C65_listing_partial.

(** A flow listed by its name *)
Theorem C65_one_partial : forall L P ops set ans n a, libc_ok L -> ntop_ok L P -> clean_targets P ->
  run L [] ops = Ok (set, ans) -> current ops ans n = Some a -> typed a -> listable a -> no_wraps a ->
  exists s v b k, flowSetPrint P set (Some n) = Ok s /\ json_text s v /\ shows v b k (target P (a_ref b)) /\ equivalent L a b.
Proof. exact one_listed. Qed.
Print Assumptions C65_one_partial.
Theorem C65_absent : forall L P ops set ans n, libc_ok L -> run L [] ops = Ok (set, ans) ->
  current ops ans n = None -> flowSetPrint P set (Some n) = Ok [].
Proof. exact none_listed. Qed.
Print Assumptions C65_absent.

(** The listing of names *)
Theorem C65_names : forall L ops set ans, libc_ok L -> run L [] ops = Ok (set, ans) ->
  (forall n a, current ops ans n = Some a -> clean n) ->
  exists ns, json_text (flowSetPrintNames set) (strings ns) /\ NoDup ns /\
    forall n, In n ns <-> exists a, current ops ans n = Some a.
Proof. exact names_listed. Qed.
Print Assumptions C65_names.

(** Listing is memory safe, whatever has been defined. *)
Theorem C65_safe : forall L P ops set ans name, libc_ok L -> zlen (printbuf P) = 1024 ->
  run L [] ops = Ok (set, ans) -> exists s, flowSetPrint P set name = Ok s.
Proof. exact listing_safe. Qed.
Print Assumptions C65_safe.

(** Two flows, with all kinds of conditions *)
Definition ex_full : fargs := mkArgs (str "full") 10 4096 (Some [str "SCTP"; str "tcp"]) (Some (str "80, 90-91,89,81")) (Some (str "1-65535"))
  (Some [str "10.0.0.9/24"; str "2001:db8::/32"]) (Some [str "::/0"]) (Some [str "tcp[0:2]&0xff=12"; str "sctp[4:4] = 0x10"]) 9899.
Definition ex_ops : list op := [Define (plain_args (str "low") 1 4096); Define (plain_args (str "full") 3 0); Define ex_full; Define (plain_args (str "x") 3 0); Delete (str "x")].
Definition ex_P : printer := ex2_printer (Some (fun _ => str "tun0")).
Example C65_ex : libc_ok ex2_lib /\ ntop_ok ex2_lib ex_P /\ clean_targets ex_P /\ exists set ans, run ex2_lib [] ex_ops = Ok (set, ans) /\
  (forall n a, current ex_ops ans n = Some a -> typed a /\ listable a /\ no_wraps a) /\
  current ex_ops ans (str "full") = Some ex_full /\ current ex_ops ans (str "low") = Some (plain_args (str "low") 1 4096).
Proof.
  split; [exact ex2_lib_ok|]. split; [apply ex2_ntop_ok|]. split.
  { intros r t H. cbn in H. injection H as <-. repeat constructor; lia. }
  do 2 eexists. split; [vm_compute; reflexivity|]. split; [|split; vm_compute; reflexivity].
  intros n a. unfold current. cbn [in_force ex_ops a_name plain_args ex_full].
  destruct (streq n (str "x")); [discriminate|].
  destruct (streq n (str "full")).
  - intros H. injection H as <-. split; [repeat split; vm_compute; discriminate|]. split.
    + repeat split; try (vm_compute; discriminate); try (vm_compute; reflexivity). repeat (constructor; [cbn; lia|]); constructor.
    + cbn [no_wraps ex_full a_match]. repeat constructor; intros i H; vm_compute in H; injection H as <-; reflexivity.
  - destruct (streq n (str "low")); [|discriminate]. intros H; injection H as <-; repeat split; repeat constructor; cbn; try lia; discriminate.
Qed.
Example C65_ex_shown : exists v, shown_as ex2_lib ex_P ex_full v /\
  v = JObj [(str "name", JStr (str "full")); (str "priority", JNum 10); (str "protocols", strings [str "tcp"; str "sctp"]);
    (str "dests", strings [str "0000:0000:0000:0000:0000:ffff:0a00:0000/120"; str "2001:0db8:0000:0000:0000:0000:0000:0000/32"]);
    (str "dports", strings [str "80-81"; str "89-91"]); (str "srcs", strings [str "0000:0000:0000:0000:0000:0000:0000:0000/0"]);
    (str "sports", strings [str "1-65535"]); (str "match", strings [str "tcp[0:2]&0xff=0xc"; str "sctp[4:4]=0x10"]);
    (str "udpencap", JNum 9899); (str "matches_count", JNum 5); (str "user_ref", JStr (str "tun0"))].
Proof. eexists. split; [apply shown_play; vm_compute; reflexivity|vm_compute; reflexivity]. Qed.

(** Each condition of [listable] is needed.  A name with quotes is not
    escaped, so that a flow can be listed under another name: *)
Theorem C65_name_refuted : exists a l, shown_as ex2_lib ex2_P a (JObj l) /\
  In (str "name", JStr (str "a")) l /\ ~ In (str "name", JStr (a_name a)) l.
Proof.
  exists (plain_args (str "a"", ""x"": ""b") 1 1). eexists. split; [apply shown_play; vm_compute; reflexivity|].
  split; [cbn; auto|]. cbn [In]. intros H. repeat (destruct H as [H|H]; [vm_compute in H; discriminate|]). destruct H.
Qed.
Print Assumptions C65_name_refuted.
(** ... a negative priority is shown as a large one, *)
Theorem C65_priority_refuted : exists a l, shown_as ex2_lib ex2_P a (JObj l) /\
  a_priority a = -1 /\ In (str "priority", JNum 4294967295) l.
Proof.
  exists (plain_args (str "a") (-1) 1). eexists. split; [apply shown_play; vm_compute; reflexivity|].
  split; [reflexivity|]. cbn; auto.
Qed.
Print Assumptions C65_priority_refuted.
(** ... an empty list of protocols as a list that would be refused, *)
Theorem C65_protocols_refuted : exists a l, shown_as ex2_lib ex2_P a (JObj l) /\ a_protocols a = Some [] /\
  In (str "protocols", strings [str ""]) l /\
  exists e, flowDefine ex2_lib [] (mkArgs (a_name a) 0 1 (Some [str ""]) None None None None None 0) = Ok (Some e, []).
Proof.
  exists (mkArgs (str "a") 0 1 (Some []) None None None None None 0). eexists. split; [apply shown_play; vm_compute; reflexivity|].
  split; [reflexivity|]. split; [cbn; auto|]. eexists. vm_compute. reflexivity.
Qed.
Print Assumptions C65_protocols_refuted.
(** ... of 34 expressions 32 are shown, and a packet matches these, *)
Theorem C65_match_refuted : exists a l ms set set', shown_as ex2_lib ex2_P a (JObj l) /\ In (str "match", strings ms) l /\
  flowDefine ex2_lib [] a = Ok (None, set) /\
  flowDefine ex2_lib [] (mkArgs (a_name a) 0 1 None None None None None (Some ms) 0) = Ok (None, set') /\
  flowLookup false set ex_ff_key ETH_IP (Some ex_ff_packet) 0 = Ok (0, 0) /\
  flowLookup false set' ex_ff_key ETH_IP (Some ex_ff_packet) 0 = Ok (1, 0).
Proof.
  exists (mkArgs (str "a") 0 1 None None None None None
    (Some (same (str "sctp[4:4]&0xffffffff=0xffffffff") 33 ++ [str "sctp[4:4]&0xffffffff=0xfffffffe"])) 0). eexists.
  exists (same (str "sctp[4:4]&0xffffffff=0xffffffff") 32). do 2 eexists. split; [apply shown_play; vm_compute; reflexivity|].
  split; [cbn; auto|]. split; [vm_compute; reflexivity|]. split; [vm_compute; reflexivity|]. split; vm_compute; reflexivity.
Qed.
Print Assumptions C65_match_refuted.
(** ... and of a text with 1024 characters of ports the last port shown is
    not the last port. *)
Theorem C65_ports_refuted : exists a l ps, shown_as ex2_lib ex2_P a (JObj l) /\ In (str "dports", strings ps) l /\
  a_dports a = Some (commas (odd_ports 170 10001 ++ [str "1000"])) /\
  In (str "10339") (odd_ports 170 10001) /\ ~ In (str "10339") ps /\ In (str "1033") ps.
Proof.
  exists (mkArgs (str "a") 0 1 None (Some (commas (odd_ports 170 10001 ++ [str "1000"]))) None None None None 0). eexists.
  exists (str "1000" :: odd_ports 169 10001 ++ [str "1033"]). split; [apply shown_play; vm_compute; reflexivity|].
  split; [vm_compute; auto|]. split; [reflexivity|].
  assert (D : forall x l, In x l <-> existsb (streq x) l = true).
  { intros x l. rewrite existsb_exists. split; [intros H; exists x; rewrite Util_Proofs.streq_refl; auto|].
    intros (y & H & E). apply Util_Proofs.streq_eq in E. subst; auto. }
  rewrite !D. split; [vm_compute; reflexivity|]. split; [vm_compute; discriminate|vm_compute; reflexivity].
Qed.
Print Assumptions C65_ports_refuted.
