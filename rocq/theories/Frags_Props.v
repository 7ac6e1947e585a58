(** C79: a host, with fragments that stay on it. *)
From Coq Require Import String Lia.
From Verif Require Import Base Lists Cstr_Model Util_Proofs IpKey_Model IpKey_Spec Maglev_Model Config_Model Maglev_Props Rangeset_Spec Match_Spec Flow_Model Flow_Spec Flow3_Proofs Flow_Props Remote_Model
  FlowLb_Model Lb_Spec Start_Model Start_Spec Client_Spec Lines_Model Lines_Spec Lines_Props Host_Model Host_Spec Host_Props Host2_Proofs Fwmark_Spec Frags_Spec Frags3_Proofs IpKey3_Proofs FlowLb5_Proofs.

(** ** C79, with fragments

    As C79_host_partial, and packets for several flows of the highest priority, with different
    tables, get the mark of one of these flows.  All fragments are allowed for: the load-balancers also
    remember datagrams, each from its start on.  A first fragment is marked like the packets of its flow, and the datagram is
    remembered with the mark; of a datagram that was sent somewhere already it is dropped.
    Another fragment gets the mark that is remembered, if not later than --ft_ttl after
    the one before it, else it is stored or dropped (-1).  What is asked has to make sense only
    in the states that are reached.  First fragments of IPv6 go by bytes of the fragment header instead of their ports
    (C59). *)
Theorem C79_with_fragments : forall vs ms, Forall2 meant_at vs ms -> host_clock 0 vs -> zlen vs <= 1073741821 ->
  (forall ms0 m ms1 c' os, ms = ms0 ++ m :: ms1 -> mays empty_city ms0 c' os -> proper (y_site c') (fst (fst m))) ->
  exists o os c, odos noHost vs = Ok (o, os) /\ mays empty_city ms c os.
Proof. exact city_serves. Qed.
Print Assumptions C79_with_fragments.

(** *** A history that meets the hypotheses *)
Definition p1 : list Z := [69;0;0;36; 0;7; 32;0; 64;6;0;0; 10;0;0;1; 10;0;0;2; 3;232; 0;80; 0;0;0;0; 0;0;0;0; 80;2;0;0].
Definition p2 : list Z := [69;0;0;28; 0;7; 0;2; 64;6;0;0; 10;0;0;1; 10;0;0;2; 2;2;2;2; 2;2;2;2].
Definition ex_events : list oevent :=
  [OTable Lines_Props.ex_env [str "init"; str "--M=8"; str "-N"; str "3"]; OTable Lines_Props.ex_env [str "activate"; str "--ind=1"; str "5"];
   OStart 7 ex_devs [str "flowlb"]; OFlow 7 (str "flow-set" :: ex_words) (repeat 65 64); OPacket 7 10 false ETH_IP p1; OPacket 7 20 true ETH_IP p2].
Definition ex_moments : list (uevent * Z * bool) :=
  [(UTable Lines_Props.ex_env (RInit (str "nfqlb") 0 8 3), 0, false); (UTable Lines_Props.ex_env (RCmd (str "nfqlb") (ActivateIdx 1 5)), 0, false);
   (UFlowLb 7 ex_devs ex_want79 (-1), 0, false); (USet 7 ex_cmd, 0, false); (UPacket 7 ETH_IP p1, 10, false); (UPacket 7 ETH_IP p2, 20, true)].
Lemma ex_meant : Forall2 meant_at ex_events ex_moments.
Proof.
  pose proof C79_ex_meant as A. unfold ex_events79, ex_asked79 in A. inversion A as [|? ? ? ? A1 B1]. inversion B1 as [|? ? ? ? A2 B2]. inversion B2 as [|? ? ? ? A3 B3]. inversion B3 as [|? ? ? ? A4 B4]. subst. clear A B1 B2 B3 B4.
  unfold ex_events, ex_moments. repeat apply Forall2_cons; try apply Forall2_nil; (split; [assumption || apply m_packet|]); cbn; auto.
Qed.
Lemma p1_first : first_frag 0 ETH_IP p1 ex_fl 20 [0;7].
Proof.
  split; [apply C35_ex|]. assert (H : ipv4_header p1 0 20 6 [10;0;0;1] [10;0;0;2]) by (unfold ipv4_header; split; [reflexivity|]; split; [reflexivity|]; split; [exists 69; split; [at_solve|reflexivity]|]; hdr_solve).
  split.
  - left. split; [reflexivity|]. exists [10;0;0;1], [10;0;0;2]. split; [reflexivity|]. split; [reflexivity|]. split; [reflexivity|]. split; [reflexivity|]. exists 20, 6, true, 0. split; [exact H|].
    split; [exists 32, 0; hdr_solve|]. split; [at_solve|split; reflexivity].
  - left. split; [reflexivity|]. split; [exists [10;0;0;1], [10;0;0;2]; split; [reflexivity|split; [reflexivity|exact H]]|]. split; [split; [reflexivity|split; [reflexivity|]]; hdr_solve|discriminate].
Qed.
Lemma p2_other : part ETH_IP p2 false (IpKey_Spec.mapped [10;0;0;1]) (IpKey_Spec.mapped [10;0;0;2]) [0;7].
Proof.
  left. split; [reflexivity|]. exists [10;0;0;1], [10;0;0;2]. split; [reflexivity|]. split; [reflexivity|]. split; [reflexivity|]. split; [reflexivity|]. exists 20, 6, false, 2.
  split; [unfold ipv4_header; split; [reflexivity|]; split; [reflexivity|]; split; [exists 69; split; [at_solve|reflexivity]|]; hdr_solve|]. split; [exists 0, 2; hdr_solve|]. split; [at_solve|lia].
Qed.
Definition ex_ready (g : site) : Prop := g_tier g 7 = None /\ exists F, g_srv g 7 = Some (SFlow 1 (-1) (-1) ex_lib F) /\ forall n c r, F n = Some (c, r) -> n = str "web" /\ c = ex_cmd /\ exists x, r = Live x.
Lemma ex_start_ready c m c' ob : may c (UFlowLb 7 ex_devs ex_want79 (-1), fst m, snd m) c' ob -> g_tier (y_site c') 7 = None /\ g_srv (y_site c') 7 = Some (SFlow 1 (-1) (-1) ex_lib (fun _ => None)).
Proof.
  intros H. inversion H; subst. match goal with H : occurs _ _ _ _ |- _ => inversion H; subst end.
  - cbn [y_site g_tier g_srv]. unfold at_k. cbn. match goal with H : tier_is _ _ _ |- _ => cbn in H; subst end. auto.
  - match goal with H : tier_gone _ _ |- _ => cbn in H; contradiction end.
Qed.
Lemma ex_set_ready c m c' ob : g_tier (y_site c) 7 = None -> g_srv (y_site c) 7 = Some (SFlow 1 (-1) (-1) ex_lib (fun _ => None)) -> may c (USet 7 ex_cmd, fst m, snd m) c' ob -> ex_ready (y_site c').
Proof.
  intros T S H. inversion H; subst. cbn [y_site] in *. match goal with H : occurs _ _ _ _ |- _ => inversion H; subst end; try (split; [assumption|]; eexists; split; [eassumption|discriminate]).
  match goal with H1 : g_srv g 7 = _, H2 : g_srv g 7 = _ |- _ => rewrite H1 in H2; injection H2 as <- <- <- <- <- end. split; [exact T|]. eexists. cbn [g_srv]. unfold at_k. cbn [Z.eqb Pos.eqb]. split; [reflexivity|].
  intros n0 c0 r0 E. unfold at_name in E. destruct (streq n0 n) eqn:Q; [|discriminate]. injection E as <- <-. apply streq_eq in Q. subst n0. split; [match goal with H : good_request _ _ _ _ |- _ => destruct H as (N & _) end; injection N as <-; reflexivity|]. split; [reflexivity|].
  match goal with H : _ \/ _ |- _ => destruct H as [(n1 & c1 & E & _)|(_ & x & d & _ & _ & ->)]; [discriminate|eauto] end.
Qed.
Lemma packet_same c k eth data t d c' ob : may c (UPacket k eth data, t, d) c' ob -> y_site c' = y_site c.
Proof. intros H. inversion H; subst; cbn [y_site]; auto. match goal with H : occurs _ _ _ _ |- _ => inversion H; subst; reflexivity end. Qed.
Example C79_with_fragments_ex : Forall2 meant_at ex_events ex_moments /\ host_clock 0 ex_events /\ zlen ex_events <= 1073741821 /\
  (forall ms0 m ms1 c' os, ex_moments = ms0 ++ m :: ms1 -> mays empty_city ms0 c' os -> proper (y_site c') (fst (fst m))) /\
  match odos noHost ex_events with Ok (_, os) => os = [Ended 0 (str "M adjusted; 8 -> 7" ++ [10]); Ended 0 []; Started true; Ended 0 ok_text; Marked 5; Marked 5] | _ => False end.
Proof.
  split; [exact ex_meant|]. split; [cbn; unfold two64; lia|]. split; [vm_compute; discriminate|]. split; [|vm_compute; reflexivity].
  intros ms0 m ms1 c' os E MY. unfold ex_moments in E.
  destruct ms0 as [|m0 ms0]; [injection E as <- _; split; [exact I|left]; exists 7; split; [exact ex_size|split; [lia|]]|].
  { intros _. split; [lia|]. split; [vm_compute; reflexivity|]. split; [vm_compute; discriminate|]. split; [right; split; [lia|]; left; reflexivity|].
    intros k. unfold Lines_Props.ex_env, ie_rand, ex_rand. do 6 (destruct k as [|k]; [cbn; lia|]). cbn. destruct k; lia. }
  destruct ms0 as [|m1 ms0]; [injection E as _ <- _; split; [exact I|left; exact I]|].
  destruct ms0 as [|m2 ms0]; [injection E as _ _ <- _; split; [cbn; lia|left; exact I]|].
  injection E as <- <- <- E. inversion MY as [|? ? c1 ? ? ? ? M1 Y1]; subst. inversion Y1 as [|? ? c2 ? ? ? ? M2 Y2]; subst. inversion Y2 as [|? ? c3 ? ? ? ? M3 Y3]; subst.
  destruct (ex_start_ready c2 (0, false) c3 _ M3) as (T3 & S3). clear MY Y1 Y2 M1 M2 M3.
  destruct ms0 as [|m3 ms0].
  { injection E as <- _. inversion Y3; subst. split; [exact I|]. left. cbn [sensible_event fst]. intros m no b L F V. rewrite S3 in V. injection V as <- <- <- <- <-. exists (str "web"), (str "nfqlb"), (str "nfqlb"). split; [|exact ex_obj].
    split; [reflexivity|]. split; [reflexivity|]. split; [exists (ex_rule79 (str "web")); exact ex_means|]. split; [intros r H; discriminate|]. split; [vm_compute; discriminate|]. split; [cbn; lia|]. intros H. destruct (H eq_refl). }
  injection E as <- E. inversion Y3 as [|? ? c4 ? ? ? ? M4 Y4]; subst. pose proof (ex_set_ready c3 (0, false) c4 _ T3 S3 M4) as RD. clear Y3 M4 T3 S3.
  assert (PR : forall g eth data, ex_ready g -> (exists f l4 id, first_frag 0 eth data f l4 id /\ fl_proto f <> 17) \/ (exists a b id, part eth data false a b id) -> proper g (UPacket 7 eth data)).
  { intros g eth data (T & F & V & FL) H. split; [exact I|]. right. right. exists 7, eth, data, (SFlow 1 (-1) (-1) ex_lib F). split; [reflexivity|]. split; [exact V|]. split; [intros r own X; congruence|].
    destruct H as [(f & l4 & id & FF & NU)|H]; [left|right; exact H]. exists f, l4, id. split; [exact FF|]. unfold decided. rewrite V. exists ex_rule79.
    split; [intros n c r X; destruct (FL n c r X) as (-> & -> & _); exact ex_means|]. split; [contradiction|]. split; [intros n c r X Y; destruct (FL n c r X) as (-> & _); destruct (Y eq_refl)|].
    split; [intros (n & c & r & _ & _ & X & _); contradiction|].
    intros n c r (X & _); destruct (FL n c r X) as (_ & _ & x & ->); left; eauto. }
  destruct ms0 as [|m4 ms0].
  { injection E as <- _. inversion Y4; subst. apply PR; [exact RD|]. left. exists ex_fl, 20, [0;7]. split; [exact p1_first|discriminate]. }
  injection E as <- E. inversion Y4 as [|? ? c5 ? ? ? ? M5 Y5]; subst. apply packet_same in M5. rewrite <- M5 in RD.
  destruct ms0 as [|m5 ms0]; [|destruct ms0; discriminate].
  injection E as <- _. inversion Y5; subst. apply PR; [exact RD|]. right. eexists _, _, _. exact p2_other.
Qed.
(** A packet that two flows of the same priority with different tables are for *)
Definition two_flows : Host_Spec.flows := fun n =>
  if streq n (str "web") then Some (ex_cmd, Live (str "nfqlb")) else
  if streq n (str "all") then Some (mkFC (Some (str "set")) (Some (str "all")) (Some (str "other")) 0 (Some [str "tcp"]) (Some (str "80")) None None None None 0, Live (str "other")) else None.
Example C79_two_flows_ex : for_flows (mkSite (fun _ => None) (fun _ => Some (SFlow 1 (-1) (-1) ex_lib two_flows)) (fun _ => None)) 7 ETH_IP ex_packet /\
  (exists c1 c2, for_packet two_flows ex_rule79 ex_fl ex_packet 20 (str "web") c1 (Live (str "nfqlb")) /\ for_packet two_flows ex_rule79 ex_fl ex_packet 20 (str "all") c2 (Live (str "other")) /\ c_priority c1 = c_priority c2).
Proof.
  assert (PO : packet_of ETH_IP ex_packet ex_fl 20) by (destruct C35_ex as (_ & _ & A & B & C & _); split; [exact A|split; [exact B|exact C]]).
  assert (AC : forall n, accepts_packet (ex_rule79 n) ex_fl ex_packet 20).
  { intros n. unfold accepts_packet. cbn. repeat split; auto. exists 80, 80. split; [left; reflexivity|lia]. }
  assert (CS : forall n c r, two_flows n = Some (c, r) -> means ex_lib (cmdArgs c n 0) (ex_rule79 n) /\ held_by r /\ c_priority c = 0).
  { intros n c r H. unfold two_flows in H. destruct (streq n (str "web")) eqn:Q; [|destruct (streq n (str "all")) eqn:Q'; [|discriminate]]; injection H as <- <-.
    - apply streq_eq in Q. subst n. split; [exact ex_means|split; [left; eauto|reflexivity]].
    - apply streq_eq in Q'. subst n. split; [|split; [left; eauto|reflexivity]]. destruct ex_means as (_ & M). split; [reflexivity|exact M]. }
  split.
  - exists 1, (-1), (-1), ex_lib, two_flows, ex_rule79, ex_fl, 20. split; [reflexivity|]. split; [intros n c r H; apply (CS n c r H)|]. split; [|intros n c r (H & _); apply (CS n c r H)].
    apply ca_plain; [exact PO|discriminate|intros n c r _ H; destruct (H eq_refl)|]. intros (n & c & r & _ & _ & X & _). discriminate X.
  - eexists; eexists. split; [split; [reflexivity|apply AC]|]. split; [split; [reflexivity|apply AC]|reflexivity].
Qed.
