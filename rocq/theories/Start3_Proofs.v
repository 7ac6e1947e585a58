(** Examples, and lines that should not be accepted (C75). *)
From Coq Require Import String Lia.
From Verif Require Import Base Lists Cstr_Model IpKey_Model IpKey_Spec Maglev_Model Rangeset_Model Rangeset_Spec Remote_Model Opt_Model Opt_Spec Opt_Proofs Util_Proofs
  Stats_Model Flow_Model FlowLb_Model Lb_Model Lb_Spec Start_Model Start_Spec Start_Proofs Start2_Proofs.
From Verif Require Frag_Model.

(** --mtu is given twice. *)
Definition ex_items : list item :=
  [GivenEq true (str "mtu") (str "1400"); GivenNext true (str "tun") (str "tun0"); GivenEq false (str "notarg") (str "-7"); GivenEq true (str "queue") (str "1:4");
   GivenEq true (str "ft_frag") (str "50"); GivenEq true (str "mtu") (str "1300"); GivenEq true (str "sctp_encap") (str "9899")].
Definition ex_want : wanted := mkWant 1300 (Some (str "tun0")) 0 (-7) 1 1 4 1024 (str "ftshm") 500 500 50 200 None.
Definition ex_env (L : libc) : env := mkEnv (fun n => if streq n (str "nfqlb") then Some (3, 5) else None) (fun d => streq d (str "tun0")) (fun _ => 1500) L.

Ltac dec_ok := split; [discriminate|split; [repeat constructor; lia|split; [reflexivity|try discriminate; auto]]].
Lemma ex_items_ok : Forall (item_ok lbOpts) ex_items.
Proof.
  assert (T : Opt_Spec.table_ok lbOpts) by apply lb_table.
  assert (NF : forall o, takesArg o = true -> ~ is_flag o) by (intros o H; rewrite flag_takes; congruence).
  assert (G : forall a i o, findOpt lbOpts a = Some i -> znth lbOpts i = Some o -> takesArg o = true -> p_name o <> str "help" ->
    exists i o, denotes lbOpts a i /\ znth lbOpts i = Some o /\ ~ is_flag o /\ p_name o <> str "help").
  { intros a i o H1 H2 H3 H4. exists i, o. split; [apply findOpt_denotes; auto|]. auto. }
  unfold ex_items. repeat apply Forall_cons; try apply Forall_nil; cbn [item_ok]; try (split; [discriminate|]); (eapply G; [reflexivity|reflexivity|reflexivity|discriminate]).
Qed.
Lemma ex_values n i o v : znth lbOpts i = Some o -> p_name o = str n ->
  match parseOptions lbOpts (line ex_items None) with Ok (Parsed vals _) => znth vals i | _ => None end = Some v -> value_of lbOpts ex_items n v.
Proof.
  intros HO HN HV. destruct lb_table as [TO RQ]. destruct (line_read lbOpts ex_items None TO ex_items_ok) as (vals & P & L & V).
  { intros j (o' & Ho & Rq & _). apply znth_In in Ho. rewrite (RQ o' Ho) in Rq. discriminate. }
  rewrite P in HV. exists i, o. auto.
Qed.
Lemma start_example L : Forall (item_ok lbOpts) ex_items /\ says lbOpts ex_items ex_want /\ number lbOpts ex_items "sctp_encap" 9899 /\
  value_of lbOpts ex_items "tshm" (Some (str "nfqlb")) /\ e_shm (ex_env L) (str "nfqlb") = Some (3, 5) /\ tier_of (ex_env L) ex_want None /\ sensible ex_want /\ usable (ex_env L) ex_want.
Proof.
  assert (NU : forall n i o s v, znth lbOpts i = Some o -> p_name o = str n ->
    match parseOptions lbOpts (line ex_items None) with Ok (Parsed vals _) => znth vals i | _ => None end = Some (Some s) -> is_num s v -> number lbOpts ex_items n v).
  { intros n i o s v H1 H2 H3 H4. exists s. split; [eapply ex_values; eauto|auto]. }
  split; [exact ex_items_ok|]. split.
  - unfold says, ex_want. cbn [w_mtu w_tun w_reasm w_notargets w_mode w_first w_last w_qlen w_stats w_size w_buckets w_frag w_ttl w_tier].
    split; [eapply (NU _ 1); [reflexivity|reflexivity|vm_compute; reflexivity|split; [lia|left; dec_ok]]|].
    split; [eapply (ex_values _ 2); [reflexivity|reflexivity|vm_compute; reflexivity]|].
    split; [eapply (NU _ 3); [reflexivity|reflexivity|vm_compute; reflexivity|split; [lia|left; dec_ok]]|].
    split; [eapply (NU _ 7); [reflexivity|reflexivity|vm_compute; reflexivity|split; [lia|right; eexists; split; [reflexivity|dec_ok]]]|].
    split; [eapply (NU _ 8); [reflexivity|reflexivity|vm_compute; reflexivity|split; [lia|left; dec_ok]]|].
    split; [eexists; split; [eapply (ex_values _ 9); [reflexivity|reflexivity|vm_compute; reflexivity]|]|].
    { right. exists [49], [52]. split; [reflexivity|]. split; [dec_ok|]. split; [dec_ok|]. unfold is_u32, UINT_MAX. lia. }
    split; [eapply (NU _ 10); [reflexivity|reflexivity|vm_compute; reflexivity|split; [lia|left; dec_ok]]|].
    split; [eapply (ex_values _ 11); [reflexivity|reflexivity|vm_compute; reflexivity]|].
    split; [eapply (NU _ 12); [reflexivity|reflexivity|vm_compute; reflexivity|split; [lia|left; dec_ok]]|].
    split; [eapply (NU _ 13); [reflexivity|reflexivity|vm_compute; reflexivity|split; [lia|left; dec_ok]]|].
    split; [eapply (NU _ 14); [reflexivity|reflexivity|vm_compute; reflexivity|split; [lia|left; dec_ok]]|].
    split; [eapply (NU _ 15); [reflexivity|reflexivity|vm_compute; reflexivity|split; [lia|left; dec_ok]]|].
    eapply (ex_values _ 6); [reflexivity|reflexivity|vm_compute; reflexivity].
  - split; [eapply (NU _ 4); [reflexivity|reflexivity|vm_compute; reflexivity|split; [lia|left; dec_ok]]|].
    split; [eapply (ex_values _ 5); [reflexivity|reflexivity|vm_compute; reflexivity]|].
    split; [reflexivity|]. split; [reflexivity|]. split; [repeat constructor; discriminate|]. split; [discriminate|]. repeat split; reflexivity || discriminate.
Qed.

(** ** Lines that should not be accepted *)
Lemma zero_size E i x s : e_shm E (str "nfqlb") = Some x -> s = "0"%string \/ s = "many"%string ->
  exists acts g qs ql m r, cmdLb E i [str "--ft_size=" ++ str s] = Ok (acts, Serving g qs ql m r) /\
    forall mem now done eth data, other_fragment 0 eth data -> runp (lbPacket g now done eth data) (lw_st (lstart g mem)) = None.
Proof.
  intros HE HS. destruct x as [t own].
  assert (P : parseOptions lbOpts [str "--ft_size=" ++ str s] = Ok (Parsed
    [None; Some (str "1500"); None; Some (str "0"); Some (str "0"); Some (str "nfqlb"); None; Some (str "-1"); Some (str "1"); Some (str "2"); Some (str "1024"); Some (str "ftshm");
     Some (str s); Some (str "500"); Some (str "100"); Some (str "200"); Some (str "unix:nfqlb-trace")] [])) by (destruct HS as [->| ->]; vm_compute; reflexivity).
  assert (A : u32 (atoi (str s)) = 0) by (destruct HS as [->| ->]; reflexivity).
  unfold cmdLb. rewrite P. cbn [obind]. rewrite HE. unfold tierOf, Start_Model.serve. cbn [m_shm m_mtu m_tun m_frag m_size m_buckets m_ttl m_queue m_qlen m_reasm].
  rewrite A. change (atoi (str "1500")) with 1500. change (1500 <? 576) with false. cbv iota. cbn [obind]. change (queues (str "2")) with (Ok [2]). cbv iota.
  do 6 eexists. split; [reflexivity|]. intros mem now done eth data HO. apply no_table_frag; [reflexivity|reflexivity|exact HO].
Qed.
Lemma out_of_range E i x : e_shm E (str "nfqlb") = Some x ->
  exists acts h t qs ql m r, cmdLb E i [str "--sctp_encap=75435"; str "--ft_buckets=-1"; str "--qlength=4294967297"] = Ok (acts, Serving (mkL h 9899 t) qs ql m r) /\
    Frag_Model.g_maxBuckets (h_frag h) = 4294967295 /\ ql = 1.
Proof.
  intros HE. destruct x as [t own].
  assert (P : parseOptions lbOpts [str "--sctp_encap=75435"; str "--ft_buckets=-1"; str "--qlength=4294967297"] = Ok (Parsed
    [None; Some (str "1500"); None; Some (str "0"); Some (str "75435"); Some (str "nfqlb"); None; Some (str "-1"); Some (str "1"); Some (str "2"); Some (str "4294967297"); Some (str "ftshm");
     Some (str "500"); Some (str "-1"); Some (str "100"); Some (str "200"); Some (str "unix:nfqlb-trace")] [])) by (vm_compute; reflexivity).
  unfold cmdLb. rewrite P. cbn [obind]. rewrite HE. unfold tierOf, Start_Model.serve. cbn [m_shm m_mtu m_tun m_frag m_size m_buckets m_ttl m_queue m_qlen m_reasm].
  change (atoi (str "1500")) with 1500. change (1500 <? 576) with false. cbv iota. cbn [obind]. change (queues (str "2")) with (Ok [2]). cbv iota.
  change (atoi (str "75435") mod 65536) with 9899. do 7 eexists. split; [reflexivity|]. split; reflexivity.
Qed.
Lemma long_tun E i x n : e_shm E (str "nfqlb") = Some x -> 40 <= zlen n -> ~ In 0 n -> e_tun E n = true -> cmdLb E i [str "--tun"; n] = UB.
Proof.
  intros HE HL _ HT. destruct x as [t own].
  assert (P : parseOptions lbOpts [str "--tun"; n] = Ok (Parsed
    [None; Some (str "1500"); Some n; Some (str "0"); Some (str "0"); Some (str "nfqlb"); None; Some (str "-1"); Some (str "1"); Some (str "2"); Some (str "1024"); Some (str "ftshm");
     Some (str "500"); Some (str "500"); Some (str "100"); Some (str "200"); Some (str "unix:nfqlb-trace")] [])) by reflexivity.
  unfold cmdLb. rewrite P. cbn [obind]. rewrite HE. unfold tierOf, Start_Model.serve. cbn [m_shm m_mtu m_tun m_frag m_size m_buckets m_ttl m_queue m_qlen m_reasm].
  change (atoi (str "1500")) with 1500. change (1500 <? 576) with false. cbv iota. rewrite HT. cbn [negb]. unfold getMtu.
  destruct (40 <? zlen n + 1) eqn:E40; [reflexivity|lia].
Qed.

Definition ex_other : list Z := [69;0;0;21; 1;2;0;7; 64;17;0;0; 10;0;0;1; 10;0;0;2; 5].
Lemma ex_other_ok : other_fragment 0 2048 ex_other.
Proof. eexists; eexists; eexists. split; [vm_compute; reflexivity|]. split; [discriminate|reflexivity]. Qed.
