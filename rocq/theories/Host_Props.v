(** C79: a host, from lines to marks. *)
From Coq Require Import String Lia.
From Verif Require Import Base Lists Cstr_Model Util_Spec Util_Proofs IpKey_Model IpKey_Spec Maglev_Model Config_Model Maglev_Props Rangeset_Spec Match_Spec Flow_Model Flow_Spec Flow3_Proofs Flow_Props Remote_Model Requests_Spec
  FlowLb_Model Lb_Spec Start_Model Start_Spec Start_Proofs Client_Model Client_Spec Client_Proofs Lines_Model Lines_Spec Lines_Props Host_Model Host_Spec Host2_Proofs Host4_Proofs Host5_Proofs Host6_Proofs Fwmark_Spec Steer_Spec SteerEx_Proofs IpKey3_Proofs FlowLb5_Proofs
  Opt_Model Opt_Spec Opt_Proofs Opt2_Proofs Encap_Spec Encap_Proofs.

(** ** C79

    Any history of lines on tables, of lb and flowlb started, of flows set and
    deleted, of packets, and of load-balancers ended: exit statuses, printed texts and
    marks are those of the specification, in which the host has a map from names to
    tables and each load-balancer its table, or its flows and their tables.  One
    thing at a time; packets are of flows, or fragments that the LB tier sends elsewhere;
    there are no errors of the system; UDP packets with SCTP in them are not for a flow
    themselves (see C42). *)
Theorem C79_host_partial : forall vs ws g os, Forall2 meant vs ws -> occur nothing ws g os -> zlen vs <= 1073741821 -> exists o, odos noHost vs = Ok (o, os).
Proof. exact host_serves. Qed.
Print Assumptions C79_host_partial.

(** And the specification says what happens next, whatever has happened. *)
Theorem C79_answers : forall vs ws g os v w, Forall2 meant vs ws -> occur nothing ws g os -> zlen vs < 1073741821 -> meant v w -> sensible_event g w ->
  exists g' ob, occurs g w g' ob.
Proof. exact host_answers. Qed.
Print Assumptions C79_answers.

(** Flows of a flowlb with the same target, as it is written, have the same table at
    all times. *)
Theorem C79_same_target : forall ws g os k m no b L F n c r n' c' r', occur nothing ws g os -> g_srv g k = Some (SFlow m no b L F) ->
  F n = Some (c, r) -> F n' = Some (c', r') -> c_target c <> None -> c_target c = c_target c' -> r = r'.
Proof. exact same_target. Qed.
Print Assumptions C79_same_target.

(** Fragments, in any history on the host: when the first fragment of a datagram was
    sent to a target, its other fragments that come not later than --ft_ttl (at most
    4294 milliseconds, see C23) after one another are sent there too, whatever
    happens to tables, flows and other load-balancers.  With an LB tier no lines on
    tables meanwhile: they may change the tier. *)
Theorem C79_fragments : forall vs0 v u vs1 o os0 os1 k enc w none p1 now done eth data m p2 d,
  odos noHost (vs0 ++ v :: vs1) = Ok (o, os0 ++ Started true :: os1) -> length os0 = length vs0 -> meant v u -> steers u k enc w none -> 0 < w_size w -> w_ttl w <= 4294 ->
  Forall (stays k) vs1 -> w_tier w = None \/ Forall no_line vs1 ->
  came k vs1 os1 = p1 ++ (now, done, eth, data, m) :: p2 -> clock 0 (map fst (came k vs1 os1)) ->
  frag_of enc eth data true d -> ~ In m none -> follow enc (w_ttl w * 1000000) d m none now (map fst p2) (map snd p2).
Proof. exact same_way. Qed.
Print Assumptions C79_fragments.

(** *** A history that meets the hypotheses *)
Lemma not_missing opts its tail vals rest : Opt_Spec.table_ok opts -> Forall (item_ok opts) its -> parseOptions opts (line its tail) = Ok (Parsed vals rest) -> forall i, ~ missing opts its i.
Proof. intros T F P i M. rewrite (line_missing opts its tail i T F M) in P. discriminate. Qed.
Lemma val_by opts its n i o v vals rest : Opt_Spec.table_ok opts -> Forall (item_ok opts) its -> parseOptions opts (line its None) = Ok (Parsed vals rest) ->
  znth opts i = Some o -> p_name o = str n -> znth vals i = Some v -> value_of opts its n v.
Proof.
  intros T F P HO HN HV. destruct (line_read opts its None T F (not_missing opts its None vals rest T F P)) as (vals' & P' & _ & V). rewrite P in P'.
  injection P' as <- _. exists i, o. auto.
Qed.
Definition ex_words : list chars := [str "--name=web"; str "--target=nfqlb"; str "--protocols=tcp"; str "--dports=80"].
Definition ex_flow : list item :=
  [GivenEq true (str "name") (str "web"); GivenEq true (str "target") (str "nfqlb"); GivenEq true (str "protocols") (str "tcp"); GivenEq true (str "dports") (str "80")].
Definition ex_name : list item := [GivenEq true (str "name") (str "web")].
Definition ex_devs : devs := mkDevs (fun _ => false) (fun _ => 1500) ex_lib.
Definition ex_events79 : list oevent :=
  [OTable Lines_Props.ex_env [str "init"; str "--M=8"; str "-N"; str "3"]; OTable Lines_Props.ex_env [str "activate"; str "--ind=1"; str "5"];
   OStart 7 ex_devs [str "flowlb"]; OFlow 7 (str "flow-set" :: ex_words) (repeat 65 64); OPacket 7 1 false ETH_IP ex_packet;
   OTable Lines_Props.ex_env [str "delete"; str "--shm=/nfqlb"]; OPacket 7 2 true ETH_IP ex_packet;
   OFlow 7 [str "flow-delete"; str "--name=web"] (repeat 65 64); OPacket 7 3 true ETH_IP ex_packet; OFlow 7 (str "flow-set" :: ex_words) (repeat 65 64); OKill 7].
Definition ex_cmd : flowcmd :=
  mkFC (Some (str "set")) (Some (str "web")) (Some (str "nfqlb")) 0 (Some [str "tcp"]) (Some (str "80")) None None None None 0.
Definition ex_want79 : wanted := mkWant 1500 None 0 (-1) 1 2 2 1024 (str "ftshm") 500 500 100 200 None.
Definition ex_asked79 : list uevent :=
  [UTable Lines_Props.ex_env (RInit (str "nfqlb") 0 8 3); UTable Lines_Props.ex_env (RCmd (str "nfqlb") (ActivateIdx 1 5));
   UFlowLb 7 ex_devs ex_want79 (-1); USet 7 ex_cmd; UPacket 7 ETH_IP ex_packet;
   UTable Lines_Props.ex_env (RDelete (str "nfqlb")); UPacket 7 ETH_IP ex_packet; UDelete 7 (str "web"); UPacket 7 ETH_IP ex_packet; USet 7 ex_cmd; UKill 7].
Ltac decs := split; [discriminate|split; [repeat constructor; lia|split; [reflexivity|try discriminate; auto]]].
Ltac given_items T := repeat apply Forall_cons; try apply Forall_nil; cbn [item_ok]; eexists; eexists;
  (split; [apply findOpt_denotes; [exact T|vm_compute; reflexivity]|]; split; [reflexivity|split; [rewrite flag_takes; discriminate|discriminate]]).
Lemma ex_flow_ok : Forall (item_ok flowSetOpts) ex_flow.
Proof. unfold ex_flow. given_items flowSet_ok. Qed.
Lemma ex_flow_value n v : value_of flowSetOpts ex_flow n v -> match parseOptions flowSetOpts (line ex_flow None) with
  | Ok (Parsed vals _) => exists i o, znth flowSetOpts i = Some o /\ p_name o = str n /\ znth vals i = Some v | _ => False end.
Proof.
  intros (i & o & Z & N & H). destruct (line_read flowSetOpts ex_flow None flowSet_ok ex_flow_ok) as (vals & P & L & V).
  { eapply (not_missing _ _ None); [exact flowSet_ok|exact ex_flow_ok|vm_compute; reflexivity]. }
  rewrite P. exists i, o. split; [exact Z|]. split; [exact N|]. pose proof (znth_some_range _ _ _ _ Z) as R. destruct (znth_in_range _ vals i) as (x & X); [lia|].
  rewrite X. f_equal. eapply value_unique; [exact flowSet_ok|apply V; exact X|exact H].
Qed.
Lemma ex_told : told FlowSet ex_flow ex_cmd.
Proof.
  destruct (client_told FlowSet ex_flow None (str "action:set" ++ [10] ++ str "name:web" ++ [10] ++ str "target:nfqlb" ++ [10] ++ str "protocols:tcp" ++ [10] ++ str "dports:80" ++ [10] ++ str "eoc:" ++ [10]) [])
    as (c & R & T & _); [exact ex_flow_ok|apply carried_small; reflexivity|vm_compute; reflexivity|].
  assert (E : c = ex_cmd). { vm_compute in R. injection R as <-. reflexivity. } rewrite <- E. exact T.
Qed.
Lemma ex_set_meant : meant (OFlow 7 (str "flow-set" :: ex_words) (repeat 65 64)) (USet 7 ex_cmd).
Proof.
  change ex_words with (line ex_flow None). apply m_set.
  - exact ex_flow_ok.
  - eapply (not_missing _ _ None); [exact flowSet_ok|exact ex_flow_ok|vm_compute; reflexivity].
  - apply carried_small. reflexivity.
  - assert (X : forall n v, value_of flowSetOpts ex_flow n (Some v) -> zlen v <= 5).
    { intros n v H. apply ex_flow_value in H. vm_compute parseOptions in H. destruct H as (i & o & _ & _ & Z). apply znth_In in Z. cbn in Z. decompose [or] Z; try discriminate; try contradiction;
        match goal with H : Some _ = Some _ |- _ => injection H as <- end; vm_compute; discriminate. }
    split; [intros v H; specialize (X _ _ H); lia|]. split; [intros n v _ H; specialize (X _ _ H); lia|]. split.
    + intros _ _ _ _. exists (str "tcp"). eapply (val_by _ _ _ 4); [exact flowSet_ok|exact ex_flow_ok|vm_compute; reflexivity|reflexivity|reflexivity|reflexivity].
    + intros v H. exfalso. assert (N : value_of flowSetOpts ex_flow "udpencap" None) by (eapply (val_by _ _ _ 10); [exact flowSet_ok|exact ex_flow_ok|vm_compute; reflexivity|reflexivity|reflexivity|reflexivity]).
      discriminate (value_fun FlowSet ex_flow "udpencap" _ _ H N).
  - exact ex_told.
Qed.
Lemma ex_start_meant : meant (OStart 7 ex_devs [str "flowlb"]) (UFlowLb 7 ex_devs ex_want79 (-1)).
Proof.
  change [str "flowlb"] with (str "flowlb" :: line [] None). destruct flowlb_table as [T _].
  assert (VA : forall n i o v, znth flowlbOpts i = Some o -> p_name o = str n -> match parseOptions flowlbOpts (line [] None) with Ok (Parsed vals _) => znth vals i | _ => None end = Some v ->
    value_of flowlbOpts [] n v).
  { intros n i o v H1 H2 H3. destruct (parseOptions flowlbOpts (line [] None)) as [r| | |] eqn:P; try discriminate. destruct r; try discriminate. eapply val_by; eauto; constructor. }
  assert (NU : forall n i o s v, znth flowlbOpts i = Some o -> p_name o = str n -> match parseOptions flowlbOpts (line [] None) with Ok (Parsed vals _) => znth vals i | _ => None end = Some (Some s) ->
    is_num s v -> number flowlbOpts [] n v) by (intros n i o s v H1 H2 H3 H4; exists s; split; [eapply VA; eauto|exact H4]).
  eapply m_flowlb; [constructor| | | | |exact ex_lib_ok].
  - unfold says, ex_want79. cbn [w_mtu w_tun w_reasm w_notargets w_mode w_first w_last w_qlen w_stats w_size w_buckets w_frag w_ttl w_tier].
    split; [eapply (NU _ 2); [reflexivity|reflexivity|vm_compute; reflexivity|split; [lia|left; decs]]|].
    split; [eapply (VA _ 3); [reflexivity|reflexivity|vm_compute; reflexivity]|].
    split; [eapply (NU _ 4); [reflexivity|reflexivity|vm_compute; reflexivity|split; [lia|left; decs]]|].
    split; [eapply (NU _ 6); [reflexivity|reflexivity|vm_compute; reflexivity|split; [lia|right; eexists; split; [reflexivity|decs]]]|].
    split; [eapply (NU _ 8); [reflexivity|reflexivity|vm_compute; reflexivity|split; [lia|left; decs]]|].
    split; [eexists; split; [eapply (VA _ 9); [reflexivity|reflexivity|vm_compute; reflexivity]|left; split; [decs|lia]]|].
    split; [eapply (NU _ 10); [reflexivity|reflexivity|vm_compute; reflexivity|split; [lia|left; decs]]|].
    split; [eapply (VA _ 11); [reflexivity|reflexivity|vm_compute; reflexivity]|].
    split; [eapply (NU _ 12); [reflexivity|reflexivity|vm_compute; reflexivity|split; [lia|left; decs]]|].
    split; [eapply (NU _ 13); [reflexivity|reflexivity|vm_compute; reflexivity|split; [lia|left; decs]]|].
    split; [eapply (NU _ 14); [reflexivity|reflexivity|vm_compute; reflexivity|split; [lia|left; decs]]|].
    split; [eapply (NU _ 15); [reflexivity|reflexivity|vm_compute; reflexivity|split; [lia|left; decs]]|].
    eapply (VA _ 1); [reflexivity|reflexivity|vm_compute; reflexivity].
  - eapply (NU _ 7); [reflexivity|reflexivity|vm_compute; reflexivity|split; [lia|right; eexists; split; [reflexivity|decs]]].
  - eapply (VA _ 5); [reflexivity|reflexivity|vm_compute; reflexivity].
  - split; [repeat constructor; discriminate|]. split; [discriminate|exact I].
Qed.
Lemma ex_delete_meant : meant (OFlow 7 [str "flow-delete"; str "--name=web"] (repeat 65 64)) (UDelete 7 (str "web")).
Proof.
  change [str "flow-delete"; str "--name=web"] with (str "flow-delete" :: line ex_name None). assert (T : Opt_Spec.table_ok nameOpts) by exact (options_ok FlowDelete).
  assert (F : Forall (item_ok nameOpts) ex_name) by (unfold ex_name; given_items T).
  apply m_delete; [exact F| |apply carried_small; reflexivity]. eapply (val_by _ _ _ 1); [exact T|exact F|vm_compute; reflexivity|reflexivity|reflexivity|reflexivity].
Qed.
Example C79_ex_meant : Forall2 meant ex_events79 ex_asked79.
Proof.
  pose proof ex_asks as A. unfold ex_events, ex_asked in A. inversion A as [|? ? ? ? A1 B1]. inversion B1 as [|? ? ? ? A2 B2]. inversion B2 as [|? ? ? ? A3 B3]. inversion B3 as [|? ? ? ? A4 B4].
  inversion B4 as [|? ? ? ? A5 B5]. cbn [is_event] in *. clear A B1 B2 B3 B4 B5.
  unfold ex_events79, ex_asked79. repeat apply Forall2_cons; try apply Forall2_nil; try apply m_packet; try apply m_kill; try exact ex_set_meant.
  - apply m_table. apply A1.
  - apply m_table. apply A2.
  - exact ex_start_meant.
  - apply m_table. apply A5.
  - exact ex_delete_meant.
Qed.

Definition ex_rule79 (n : chars) : rule := mkRule (Some [6]) (Some [(80, 80)]) None None None None.
Lemma ex_means : means ex_lib (cmdArgs ex_cmd (str "web") 0) (ex_rule79 (str "web")).
Proof.
  unfold means. cbn [cmdArgs ex_cmd c_name c_protocols c_dports c_sports c_dsts c_srcs c_match a_name a_protocols a_dports a_sports a_dsts a_srcs a_match ex_rule79 r_protocols r_dports r_sports r_dsts r_srcs r_match given].
  split; [reflexivity|]. split; [|split; [|repeat split; exact Logic.I]].
  - constructor; [|constructor]. exists (str "tcp"). split; [|right; left; auto]. cbn. repeat (constructor; [left; lia|]). constructor.
  - split; [cbn; lia|]. split; [unfold acceptable; repeat (apply Forall_cons; [cbn; lia|]); apply Forall_nil|].
    exists [str "80"]. split; [apply (pieces_last [44; 32] [] (str "80")); cbn; intuition (subst; discriminate)|].
    constructor; [exists (str "80"); split; [num|left; auto]|constructor].
Qed.
Lemma ex_table79 : exists s, table_of ex_made s /\ marks (-1) s (flow_hash 1 ex_fl) 5.
Proof.
  assert (H : match cmdInit 8 3 ex_rand with Ok s0 => match run_hist s0 [ActivateIdx 1 5] with Ok s => znth (mlookup s) (flow_hash 1 ex_fl mod mM s) = Some 1 /\ znth (mactive s) 1 = Some 5 | _ => False end | _ => False end).
  { vm_compute. auto. }
  destruct (cmdInit 8 3 ex_rand) as [s0| | |] eqn:E; try contradiction. destruct (run_hist s0 [ActivateIdx 1 5]) as [s| | |] eqn:E2; try contradiction. destruct H as (A & C).
  exists s. split; [exists s0; split; [exact E|exact E2]|]. exists 5. split; [|reflexivity]. exists 1. split; [assumption|]. right. split; [lia|exact C].
Qed.
Definition ex_results : list oobs :=
  [Ended 0 (str "M adjusted; 8 -> 7" ++ [10]); Ended 0 []; Started true; Ended 0 (str "OK" ++ [10]); Marked 5; Ended 0 []; Marked 5; Ended 0 (str "OK" ++ [10]); Marked (-1);
   Ended (-1) (str "FAIL: Couldn't create load-balancer" ++ [10]); Ended 0 []].
Example C79_ex_occurs : exists g, occur nothing ex_asked79 g ex_results.
Proof.
  destruct ex_table79 as (s & T & MK).
  assert (GR : good_request ex_lib ex_cmd (str "web") (str "nfqlb")).
  { split; [reflexivity|]. split; [reflexivity|]. split; [exists (ex_rule79 (str "web")); exact ex_means|]. split; [intros r H; discriminate|]. split; [vm_compute; discriminate|]. split; [cbn; lia|]. intros H. destruct (H eq_refl). }
  assert (PO : packet_of ETH_IP ex_packet ex_fl 20) by (destruct C35_ex as (_ & _ & A & B & C & _); split; [exact A|split; [exact B|exact C]]).
  assert (PC : forall F R, (forall n c r, F n = Some (c, r) -> r_match (R n) <> None -> complete_plus ex_packet (fl_proto ex_fl) 20) -> carries F R ETH_IP ex_packet ex_fl 20).
  { intros F R H. apply ca_plain; [exact PO|discriminate|exact H|]. intros (n & c & r & _ & _ & X & _). discriminate X. }
  assert (AC : accepts_packet (ex_rule79 (str "web")) ex_fl ex_packet 20).
  { unfold accepts_packet. cbn. repeat split; auto. exists 80, 80. split; [left; reflexivity|lia]. }
  eexists. unfold ex_asked79, ex_results.
  eapply cs_cons. { eapply (c_table nothing _ _ (at_name (fun _ => None) (str "nfqlb") (Some (mkMade 0 8 3 ex_rand []))) (becomes (str "nfqlb") Lost)). intros rd. eapply (h_init (mkW _ rd) Lines_Props.ex_env _ 0 8 3 7 ex_size); [lia|]. split; [lia|]. split; [vm_compute; reflexivity|]. split; [vm_compute; discriminate|]. split; [right; split; [lia|]; left; reflexivity|].
    intros k. unfold Lines_Props.ex_env, ie_rand, ex_rand. do 6 (destruct k as [|k]; [cbn; lia|]). cbn. destruct k; lia. }
  eapply cs_cons. { eapply (c_table _ _ _ (at_name (at_name (fun _ => None) (str "nfqlb") (Some (mkMade 0 8 3 ex_rand []))) (str "nfqlb") (Some ex_made)) (fun r => r)). intros rd. eapply (h_cmd (mkW _ rd) _ _ _ (mkMade 0 8 3 ex_rand [])); [reflexivity|cbn; lia]. }
  eapply cs_cons. { eapply c_flowlb. reflexivity. }
  eapply cs_cons. { eapply c_set; [reflexivity|exact GR|intros c' r' H; discriminate H|]. right. split; [intros r' (n & c & H & _); discriminate H|]. exists (str "nfqlb"). eexists. split; [exact ex_obj|]. split; reflexivity. }
  assert (FL : forall n c (r : reader) F (r0 : reader), at_name (fun _ => None) (str "web") (Some (ex_cmd, r0)) = F -> F n = Some (c, r) -> n = str "web" /\ c = ex_cmd /\ r = r0).
  { intros n c r F r0 <- H. unfold at_name in H. destruct (streq n (str "web")) eqn:Q; [|discriminate]. apply streq_eq in Q. injection H as <- <-. auto. }
  eapply cs_cons.
  { eapply (c_packet_flow _ _ _ _ _ _ _ _ _ ex_rule79 ex_fl 20 (str "web") ex_cmd (Live (str "nfqlb")) s 5); [reflexivity| |apply PC; intros n c r _ H; destruct (H eq_refl)|split; [reflexivity|exact AC]| | |exact MK].
    - intros n c r H. destruct (FL _ _ _ _ _ eq_refl H) as (-> & -> & _). exact ex_means.
    - intros n' c' r' (H & _). destruct (FL _ _ _ _ _ eq_refl H) as (-> & -> & ->). split; [|reflexivity]. exists s, ex_made. split; [exact T|]. right. exists (str "nfqlb"). split; reflexivity.
    - exists ex_made. split; [exact T|]. right. exists (str "nfqlb"). split; reflexivity. }
  eapply cs_cons. { eapply (c_table _ _ _ (at_name (at_name (at_name (fun _ => None) (str "nfqlb") (Some (mkMade 0 8 3 ex_rand []))) (str "nfqlb") (Some ex_made)) (str "nfqlb") None) (becomes (str "nfqlb") (Kept ex_made))). intros rd. eapply (h_delete (mkW _ rd) _ _ ex_made). reflexivity. }
  assert (FL2 : forall n c (r : reader) F (r0 : reader) (f : reader -> reader), (fun x => match at_name (fun _ : chars => @None (flowcmd * reader)) (str "web") (Some (ex_cmd, r0)) x with Some (c, t) => Some (c, f t) | None => None end) = F -> F n = Some (c, r) ->
    n = str "web" /\ c = ex_cmd /\ r = f r0).
  { intros n c r F r0 f <- H. unfold at_name in H. destruct (streq n (str "web")) eqn:Q; [|discriminate]. apply streq_eq in Q. injection H as <- <-. auto. }
  eapply cs_cons.
  { eapply (c_packet_flow _ _ _ _ _ _ _ _ _ ex_rule79 ex_fl 20 (str "web") ex_cmd (Kept ex_made) s 5); [reflexivity| |apply PC; intros n c r _ H; destruct (H eq_refl)|split; [reflexivity|exact AC]| | |exact MK].
    - intros n c r H. destruct (FL2 _ _ _ _ _ _ eq_refl H) as (-> & -> & _). exact ex_means.
    - intros n' c' r' (H & _). destruct (FL2 _ _ _ _ _ _ eq_refl H) as (-> & -> & ->). split; [|reflexivity]. exists s, ex_made. split; [exact T|]. left. reflexivity.
    - exists ex_made. split; [exact T|]. left. reflexivity. }
  eapply cs_cons. { eapply c_delete; [reflexivity|]. intros m c r H U. destruct (FL2 _ _ _ _ _ _ eq_refl H) as (_ & -> & _). destruct (U eq_refl). }
  assert (FL3 : forall (F : Host_Spec.flows) n c r, (forall m, m <> str "web" -> F m = None) -> at_name F (str "web") None n = Some (c, r) -> False).
  { intros F n c r N H. unfold at_name in H. destruct (streq n (str "web")) eqn:Q; [discriminate|]. rewrite N in H; [discriminate|]. intros ->. rewrite streq_refl in Q. discriminate. }
  assert (FN : forall m, m <> str "web" -> (match at_name (fun _ : chars => @None (flowcmd * reader)) (str "web") (Some (ex_cmd, Live (str "nfqlb"))) m with Some (c, t) => Some (c, becomes (str "nfqlb") (Kept ex_made) t) | None => None end) = None).
  { intros m N. unfold at_name. destruct (streq m (str "web")) eqn:Q; [apply streq_eq in Q; contradiction|reflexivity]. }
  eapply cs_cons.
  { eapply (c_packet_other _ _ _ _ _ _ _ _ _ ex_rule79 ex_fl 20); [reflexivity| |apply PC; intros n c r H; destruct (FL3 _ _ _ _ FN H)|].
    - intros n c r H. destruct (FL3 _ _ _ _ FN H).
    - intros n c r (H & _). destruct (FL3 _ _ _ _ FN H). }
  eapply cs_cons.
  { match goal with |- occurs ?g0 _ _ _ => refine (c_set_no g0 7 ex_cmd _ _ _ _ _ (str "web") (str "nfqlb") eq_refl GR _ _ _) end.
    - intros c' r' H. destruct (FL3 _ _ _ _ FN H).
    - intros r' (n & c & H & _). destruct (FL3 _ _ _ _ FN H).
    - intros x O. rewrite (Host2_Proofs.object_fun _ _ _ O ex_obj). reflexivity. }
  eapply cs_cons. { apply c_kill. }
  constructor.
Qed.
Example C79_ex : exists o, odos noHost ex_events79 = Ok (o, ex_results).
Proof. destruct C79_ex_occurs as (g & H). apply (C79_host_partial _ _ _ _ C79_ex_meant H). vm_compute. discriminate. Qed.

(** With --udpencap: SCTP in UDP is steered as the SCTP packet in it; the udp port of
    a flow cannot be changed. *)
Definition ex_udp (port : chars) : list item :=
  [GivenEq true (str "name") (str "web"); GivenEq true (str "target") (str "nfqlb"); GivenEq true (str "protocols") (str "sctp"); GivenEq true (str "udpencap") port].
Definition ex_udp_cmd (port : Z) : flowcmd := mkFC (Some (str "set")) (Some (str "web")) (Some (str "nfqlb")) 0 (Some [str "sctp"]) None None None None None port.
Lemma ex_udp_meant p v : In (p, v) [(str "9899", 9899); (str "9900", 9900)] -> meant (OFlow 7 (str "flow-set" :: line (ex_udp p) None) (repeat 65 64)) (USet 7 (ex_udp_cmd v)).
Proof.
  intros I. assert (OK : Forall (item_ok flowSetOpts) (ex_udp p)) by (unfold ex_udp; given_items flowSet_ok).
  assert (P : exists vals, parseOptions flowSetOpts (line (ex_udp p) None) = Ok (Parsed vals []) /\ znth vals 4 = Some (Some (str "sctp")) /\ (forall w, In (Some w) vals -> zlen w <= 5) /\ znth vals 6 = Some None /\ znth vals 7 = Some None).
  { destruct I as [[= <- <-]|[[= <- <-]|[]]]; (eexists; split; [vm_compute; reflexivity|]; split; [reflexivity|]; split; [|split; reflexivity];
      intros w Z; cbn in Z; decompose [or] Z; try discriminate; try contradiction; match goal with H : Some _ = Some _ |- _ => injection H as <- end; vm_compute; discriminate). }
  destruct P as (vals & P & V4 & SH & V6 & V7). pose proof (not_missing _ _ _ _ _ flowSet_ok OK P) as NM.
  assert (VA : forall n w, value_of flowSetOpts (ex_udp p) n (Some w) -> zlen w <= 5).
  { intros n w (i & o & Z & N & H). destruct (line_read flowSetOpts (ex_udp p) None flowSet_ok OK NM) as (vals' & P' & L & V). rewrite P in P'. injection P' as <-.
    pose proof (znth_some_range _ _ _ _ Z) as R. destruct (znth_in_range _ vals i) as (x & X); [lia|]. assert (E : x = Some w) by (eapply value_unique; [exact flowSet_ok|apply V; exact X|exact H]).
    rewrite E in X. apply znth_In in X. apply SH, X. }
  assert (V4' : value_of flowSetOpts (ex_udp p) "protocols" (Some (str "sctp"))) by (eapply (val_by _ _ _ 4); [exact flowSet_ok|exact OK|exact P|reflexivity|reflexivity|exact V4]).
  assert (CA : carried FlowSet (ex_udp p) None) by (apply carried_small; destruct I as [[= <- <-]|[[= <- <-]|[]]]; reflexivity).
  apply m_set; auto.
  - split; [intros w H; specialize (VA _ _ H); lia|]. split; [intros n w _ H; specialize (VA _ _ H); lia|]. split.
    + intros _ _ _ _. exists (str "sctp"). exact V4'.
    + intros w _. exists [], (str "sctp"), []. split; [exact V4'|]. cbn. repeat (constructor; [left; lia|]). constructor.
  - destruct (client_told FlowSet (ex_udp p) None (str "action:set" ++ [10] ++ str "name:web" ++ [10] ++ str "target:nfqlb" ++ [10] ++ str "protocols:sctp" ++ [10] ++ str "udpencap:" ++ p ++ [10] ++ str "eoc:" ++ [10]) [])
      as (c & R & T & _); [exact OK|exact CA|destruct I as [[= <- <-]|[[= <- <-]|[]]]; vm_compute; reflexivity|].
    assert (E : c = ex_udp_cmd v). { destruct I as [[= <- <-]|[[= <- <-]|[]]]; vm_compute in R; injection R as <-; reflexivity. } rewrite <- E. exact T.
Qed.
Definition ex_udp_events : list oevent :=
  [OTable Lines_Props.ex_env [str "init"; str "--M=8"; str "-N"; str "3"]; OTable Lines_Props.ex_env [str "activate"; str "--ind=1"; str "5"]; OStart 7 ex_devs [str "flowlb"];
   OFlow 7 (str "flow-set" :: line (ex_udp (str "9899")) None) (repeat 65 64); OPacket 7 1 false ETH_IP ex_b_encap; OFlow 7 (str "flow-set" :: line (ex_udp (str "9900")) None) (repeat 65 64);
   OFlow 7 [str "flow-delete"; str "--name=web"] (repeat 65 64)].
Definition ex_udp_asked : list uevent :=
  [UTable Lines_Props.ex_env (RInit (str "nfqlb") 0 8 3); UTable Lines_Props.ex_env (RCmd (str "nfqlb") (ActivateIdx 1 5)); UFlowLb 7 ex_devs ex_want79 (-1);
   USet 7 (ex_udp_cmd 9899); UPacket 7 ETH_IP ex_b_encap; USet 7 (ex_udp_cmd 9900); UDelete 7 (str "web")].
Definition ex_udp_rule (n : chars) : rule := mkRule (Some [132]) None None None None None.
Example C79_udp_meant : Forall2 meant ex_udp_events ex_udp_asked.
Proof.
  pose proof ex_asks as A. unfold ex_events, ex_asked in A. inversion A as [|? ? ? ? A1 B1]. inversion B1 as [|? ? ? ? A2 B2]. cbn [is_event] in *. clear A B1 B2.
  unfold ex_udp_events, ex_udp_asked. repeat apply Forall2_cons; try apply Forall2_nil; try apply m_packet.
  - apply m_table. apply A1.
  - apply m_table. apply A2.
  - exact ex_start_meant.
  - apply ex_udp_meant. left. reflexivity.
  - apply ex_udp_meant. right. left. reflexivity.
  - exact ex_delete_meant.
Qed.
Definition ex_udp_results : list oobs :=
  [Ended 0 (str "M adjusted; 8 -> 7" ++ [10]); Ended 0 []; Started true; Ended 0 (str "OK" ++ [10]); Marked 5; Ended (-1) (str "FAIL: Alter udpencap not allowed" ++ [10]); Ended 0 (str "OK" ++ [10])].
Example C79_udp_occurs : exists g, occur nothing ex_udp_asked g ex_udp_results.
Proof.
  assert (MK : exists s, table_of ex_made s /\ marks (-1) s (flow_hash 1 ex_inner) 5).
  { assert (H : match cmdInit 8 3 ex_rand with Ok s0 => match run_hist s0 [ActivateIdx 1 5] with Ok s => znth (mlookup s) (flow_hash 1 ex_inner mod mM s) = Some 1 /\ znth (mactive s) 1 = Some 5 | _ => False end | _ => False end).
    { vm_compute. auto. }
    destruct (cmdInit 8 3 ex_rand) as [s0| | |] eqn:E; try contradiction. destruct (run_hist s0 [ActivateIdx 1 5]) as [s| | |] eqn:E2; try contradiction. destruct H as (A & C).
    exists s. split; [exists s0; split; [exact E|exact E2]|]. exists 5. split; [|reflexivity]. exists 1. split; [assumption|]. right. split; [lia|exact C]. }
  destruct MK as (s & T & MK).
  assert (ME : forall v, means ex_lib (cmdArgs (ex_udp_cmd v) (str "web") 0) (ex_udp_rule (str "web"))).
  { intros v. unfold means. cbn -[str]. split; [reflexivity|]. split; [|repeat split; exact Logic.I]. constructor; [|constructor]. exists (str "sctp"). split; [repeat constructor|unfold Match_Spec.proto_name; auto]. }
  assert (GR : forall v, good_request ex_lib (ex_udp_cmd v) (str "web") (str "nfqlb")).
  { intros v. split; [reflexivity|]. split; [reflexivity|]. split; [exists (ex_udp_rule (str "web")); apply ME|]. split; [intros r H; discriminate|]. split; [vm_compute; discriminate|]. split; [cbn; lia|].
    intros _. exists (str "sctp"). split; [reflexivity|]. cbn. repeat (constructor; [left; lia|]). constructor. }
  destruct ex_byte_example as (_ & _ & _ & _ & OI & OO & P4 & PA & _ & PI & _).
  eexists. unfold ex_udp_asked, ex_udp_results.
  eapply cs_cons. { eapply (c_table nothing _ _ (at_name (fun _ => None) (str "nfqlb") (Some (mkMade 0 8 3 ex_rand []))) (becomes (str "nfqlb") Lost)). intros rd. eapply (h_init (mkW _ rd) Lines_Props.ex_env _ 0 8 3 7 ex_size); [lia|]. split; [lia|]. split; [vm_compute; reflexivity|]. split; [vm_compute; discriminate|]. split; [right; split; [lia|]; left; reflexivity|].
    intros k. unfold Lines_Props.ex_env, ie_rand, ex_rand. do 6 (destruct k as [|k]; [cbn; lia|]). cbn. destruct k; lia. }
  eapply cs_cons. { eapply (c_table _ _ _ (at_name (at_name (fun _ => None) (str "nfqlb") (Some (mkMade 0 8 3 ex_rand []))) (str "nfqlb") (Some ex_made)) (fun r => r)). intros rd. eapply (h_cmd (mkW _ rd) _ _ _ (mkMade 0 8 3 ex_rand [])); [reflexivity|cbn; lia]. }
  eapply cs_cons. { eapply c_flowlb. reflexivity. }
  eapply cs_cons. { eapply c_set; [reflexivity|apply GR|intros c' r' H; discriminate H|]. right. split; [intros r' (n & c & H & _); discriminate H|]. exists (str "nfqlb"). eexists. split; [exact ex_obj|]. split; reflexivity. }
  assert (FL : forall n c (r : reader) F (r0 : reader), at_name (fun _ => None) (str "web") (Some (ex_udp_cmd 9899, r0)) = F -> F n = Some (c, r) -> n = str "web" /\ c = ex_udp_cmd 9899 /\ r = r0).
  { intros n c r F r0 <- H. unfold at_name in H. destruct (streq n (str "web")) eqn:Q; [|discriminate]. apply streq_eq in Q. injection H as <- <-. auto. }
  eapply cs_cons.
  { eapply (c_packet_flow _ _ _ _ _ _ _ _ _ ex_udp_rule ex_inner 28 (str "web") (ex_udp_cmd 9899) (Live (str "nfqlb")) s 5); [reflexivity| | | | | |exact MK].
    - intros n c r H. destruct (FL _ _ _ _ _ eq_refl H) as (-> & -> & _). apply ME.
    - apply (ca_udp _ _ _ _ ex_inner 20 [9;9] [38;171]); auto.
      + split; [exact OO|]. split; [exact P4|exact PA].
      + exists (str "web"). eexists _, _. split; [reflexivity|]. split; [discriminate|]. split; [reflexivity|]. split; [reflexivity|]. split; exact Logic.I.
      + intros n c r _ H. destruct (H eq_refl).
      + intros n c r (_ & _ & H & _). cbn in H. destruct H as [H|[]]. discriminate.
    - split; [reflexivity|]. unfold accepts_packet. cbn. repeat split; auto.
    - intros n' c' r' (H & _). destruct (FL _ _ _ _ _ eq_refl H) as (-> & -> & ->). split; [|reflexivity]. exists s, ex_made. split; [exact T|]. right. exists (str "nfqlb"). split; reflexivity.
    - exists ex_made. split; [exact T|]. right. exists (str "nfqlb"). split; reflexivity. }
  eapply cs_cons. { eapply c_set_udp; [reflexivity|apply GR|reflexivity|discriminate]. }
  eapply cs_cons. { eapply c_delete; [reflexivity|]. intros m c r H U. destruct (FL _ _ _ _ _ eq_refl H) as (-> & _). discriminate. }
  constructor.
Qed.
Example C79_udp_ex : exists o, odos noHost ex_udp_events = Ok (o, ex_udp_results).
Proof. destruct C79_udp_occurs as (g & H). apply (C79_host_partial _ _ _ _ C79_udp_meant H). vm_compute. discriminate. Qed.

(** Fragments, between which the flow and the table are deleted *)
Definition ex_before : list oevent := [OTable Lines_Props.ex_env [str "init"; str "--M=8"; str "-N"; str "3"]; OTable Lines_Props.ex_env [str "activate"; str "--ind=1"; str "5"]].
Definition ex_after : list oevent :=
  [OFlow 7 [str "flow-set"; str "--name=all"; str "--target=nfqlb"] (repeat 65 64); OPacket 7 5 false ETH_IP ex_packet; OPacket 7 10 false 2048 f1; OPacket 7 20 false 2048 f2;
   OFlow 7 [str "flow-delete"; str "--name=all"] (repeat 65 64); OTable Lines_Props.ex_env [str "delete"; str "--shm=/nfqlb"]; OPacket 7 30 true 2048 f3].
Example C79_fragments_ex : exists o os1, odos noHost (ex_before ++ OStart 7 ex_devs [str "flowlb"] :: ex_after) =
    Ok (o, [Ended 0 (str "M adjusted; 8 -> 7" ++ [10]); Ended 0 []] ++ Started true :: os1) /\
  meant (OStart 7 ex_devs [str "flowlb"]) (UFlowLb 7 ex_devs ex_want79 (-1)) /\ steers (UFlowLb 7 ex_devs ex_want79 (-1)) 7 0 ex_want79 [-1; -1; -1] /\
  0 < w_size ex_want79 /\ w_ttl ex_want79 <= 4294 /\ Forall (stays 7) ex_after /\ w_tier ex_want79 = None /\
  came 7 ex_after os1 = [(5, false, ETH_IP, ex_packet, 5)] ++ (10, false, 2048, f1, 5) :: [(20, false, 2048, f2, 5); (30, true, 2048, f3, 5)] /\
  clock 0 (map fst (came 7 ex_after os1)) /\ frag_of 0 2048 f1 true fd /\ frag_of 0 2048 f2 false fd /\ frag_of 0 2048 f3 false fd.
Proof.
  assert (X : exists os1, match odos noHost (ex_before ++ OStart 7 ex_devs [str "flowlb"] :: ex_after) with
    | Ok (_, os) => os = [Ended 0 (str "M adjusted; 8 -> 7" ++ [10]); Ended 0 []] ++ Started true :: os1 | _ => False end /\
    came 7 ex_after os1 = [(5, false, ETH_IP, ex_packet, 5)] ++ (10, false, 2048, f1, 5) :: [(20, false, 2048, f2, 5); (30, true, 2048, f3, 5)]).
  { exists [Ended 0 ok_text; Marked 5; Marked 5; Marked 5; Ended 0 ok_text; Ended 0 []; Marked 5]. split; vm_compute; reflexivity. }
  destruct X as (os1 & X & Y). destruct (odos noHost _) as [[o os]| | |]; try contradiction. subst os. exists o, os1. split; [reflexivity|]. split; [exact ex_start_meant|]. split; [apply s_flowlb|].
  split; [cbn; lia|]. split; [cbn; lia|]. split; [repeat constructor|]. split; [reflexivity|]. split; [exact Y|]. rewrite Y. split; [cbn; unfold two64; lia|]. exact fd_parts.
Qed.

(** With an LB tier: fragments go to the load-balancer that the table of the tier says. *)
Definition ex_tier_want : wanted := mkWant 1500 None 0 (-1) 1 2 2 1024 (str "ftshm") 500 500 100 200 (Some (str "nfqlb")).
Example C79_tier_ex : exists g, occur nothing [UTable Lines_Props.ex_env (RInit (str "nfqlb") 0 8 3); UTable Lines_Props.ex_env (RCmd (str "nfqlb") (ActivateIdx 1 5));
    UFlowLb 7 ex_devs ex_tier_want (-1); UPacket 7 ETH_IP f2; UPacket 7 ETH_IP f1] g
  [Ended 0 (str "M adjusted; 8 -> 7" ++ [10]); Ended 0 []; Started true; Marked 5; Marked 5].
Proof.
  assert (H : match cmdInit 8 3 ex_rand with Ok s0 => match run_hist s0 [ActivateIdx 1 5] with Ok s => znth (mlookup s) (djb2 (IpKey_Spec.mapped [10;0;0;1] ++ IpKey_Spec.mapped [10;0;0;2]) mod mM s) = Some 1 /\ znth (mactive s) 1 = Some 5 | _ => False end | _ => False end).
  { vm_compute. auto. }
  destruct (cmdInit 8 3 ex_rand) as [s0| | |] eqn:E; try contradiction. destruct (run_hist s0 [ActivateIdx 1 5]) as [s| | |] eqn:E2; try contradiction. destruct H as (A & C).
  assert (TG : target s (djb2 (IpKey_Spec.mapped [10;0;0;1] ++ IpKey_Spec.mapped [10;0;0;2])) 5) by (exists 1; split; [exact A|right; split; [lia|exact C]]). clear A C.
  assert (HT : table_of ex_made s) by (exists s0; auto).
  assert (P2 : fragment_of 0 ETH_IP f2 (IpKey_Spec.mapped [10;0;0;1]) (IpKey_Spec.mapped [10;0;0;2])).
  { exists false, [0;7]. split; [|discriminate]. left. split; [reflexivity|]. exists [10;0;0;1], [10;0;0;2]. split; [reflexivity|]. split; [reflexivity|].
    split; [reflexivity|]. split; [reflexivity|]. exists 20, 132, true, 2. split; [unfold ipv4_header; split; [reflexivity|]; split; [reflexivity|]; split; [exists 69; split; [at_solve|reflexivity]|]; hdr_solve|]. split; [exists 32, 2; hdr_solve|]. split; [at_solve|lia]. }
  assert (P1 : fragment_of 0 ETH_IP f1 (IpKey_Spec.mapped [10;0;0;1]) (IpKey_Spec.mapped [10;0;0;2])).
  { exists true, [0;7]. split; [left; split; [reflexivity|]; exists [10;0;0;1], [10;0;0;2]; split; [reflexivity|]; split; [reflexivity|]|].
    - split; [reflexivity|]. split; [reflexivity|]. exists 20, 132, true, 0. split; [unfold ipv4_header; split; [reflexivity|]; split; [reflexivity|]; split; [exists 69; split; [at_solve|reflexivity]|]; hdr_solve|]. split; [exists 32, 0; hdr_solve|]. split; [at_solve|split; reflexivity].
    - intros _. eexists _, _, _. split; [vm_compute; reflexivity|discriminate]. }
  eexists.
  eapply cs_cons. { eapply (c_table nothing _ _ (at_name (fun _ => None) (str "nfqlb") (Some (mkMade 0 8 3 ex_rand []))) (becomes (str "nfqlb") Lost)). intros rd. eapply (h_init (mkW _ rd) Lines_Props.ex_env _ 0 8 3 7 ex_size); [lia|]. split; [lia|]. split; [vm_compute; reflexivity|]. split; [vm_compute; discriminate|]. split; [right; split; [lia|]; left; reflexivity|].
    intros k. unfold Lines_Props.ex_env, ie_rand, ex_rand. do 6 (destruct k as [|k]; [cbn; lia|]). cbn. destruct k; lia. }
  eapply cs_cons. { eapply (c_table _ _ _ (at_name (at_name (fun _ => None) (str "nfqlb") (Some (mkMade 0 8 3 ex_rand []))) (str "nfqlb") (Some ex_made)) (fun r => r)). intros rd. eapply (h_cmd (mkW _ rd) _ _ _ (mkMade 0 8 3 ex_rand [])); [reflexivity|cbn; lia]. }
  eapply cs_cons. { eapply c_flowlb. exists (str "nfqlb"), ex_made. split; [exact ex_obj|]. split; reflexivity. }
  eapply cs_cons. { eapply c_packet_tier; [reflexivity|reflexivity|exact P2| |exact TG|lia|discriminate]. exists ex_made. split; [exact HT|]. right. exists (str "nfqlb"). split; reflexivity. }
  eapply cs_cons. { eapply c_packet_tier; [reflexivity|reflexivity|exact P1| |exact TG|lia|discriminate]. exists ex_made. split; [exact HT|]. right. exists (str "nfqlb"). split; reflexivity. }
  constructor.
Qed.
Example C79_tier_run_ex : match odos noHost (ex_before ++ [OStart 7 ex_devs [str "flowlb"; str "--lbshm=nfqlb"]; OPacket 7 5 false 2048 f2; OPacket 7 6 false 2048 f1]) with
  | Ok (_, os) => os = [Ended 0 (str "M adjusted; 8 -> 7" ++ [10]); Ended 0 []; Started true; Marked 5; Marked 5] | _ => False end.
Proof. vm_compute. reflexivity. Qed.

(** A flow gets the table that has the name of its target when it is set.  Not if
    another flow has the same target, as it is written: then it gets that flow's
    table, also when that was deleted and there is a new one.  To set the flows
    again does not help, to write the target otherwise (or to delete all the flows
    first) does. *)
Definition seen79 (r : outcome (host * list oobs)) : option (list oobs) := match r with Ok (_, os) => Some os | _ => None end.
Theorem C79_new_table_refuted :
  let line ws := OTable Lines_Props.ex_env (map str ws) in
  let flow ws := OFlow 7 (str "flow-set" :: map str ws) (repeat 65 64) in
  let packet := OPacket 7 1 false ETH_IP ex_packet in
  seen79 (odos noHost
   [line ["init"; "--M=7"; "--N=3"]%string; line ["activate"; "5"]%string; OStart 7 ex_devs [str "flowlb"]; flow ["--name=a"; "--target=nfqlb"]%string;
    line ["delete"; "--shm=nfqlb"]%string; line ["init"; "--M=7"; "--N=3"]%string; line ["activate"; "8"]%string;
    flow ["--name=b"; "--target=nfqlb"; "--prio=10"]%string; packet; flow ["--name=a"; "--target=nfqlb"]%string; packet;
    flow ["--name=b"; "--target=/nfqlb"; "--prio=10"]%string; packet]) =
  Some ([Ended 0 []; Ended 0 []; Started true; Ended 0 ok_text; Ended 0 []; Ended 0 []; Ended 0 []] ++ [Ended 0 ok_text; Marked 5; Ended 0 ok_text; Marked 5; Ended 0 ok_text; Marked 8]).
Proof. vm_compute. reflexivity. Qed.
Print Assumptions C79_new_table_refuted.
