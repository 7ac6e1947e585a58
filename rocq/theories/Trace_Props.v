(** C66: trace flows. *)
From Coq Require Import String.
From Verif Require Import Base Cstr_Model Util_Spec IpKey_Model IpKey_Spec Match_Spec Flow_Model Flow_Spec Flow3_Proofs Remote_Model
  FlowLb_Model Requests_Spec Print_Model Print_Spec Print5_Proofs Trace_Model Trace_Spec Trace_Proofs Trace2_Proofs Trace3_Proofs.

(** ** C66

    The name written for a TCP, UDP or SCTP packet is that of a trace flow
    requested (and not deleted) when the packet was looked up, that accepts
    the packet; none of higher priority does.  Whatever happens between the
    lookup and the writing. *)
Theorem C66_named : forall L P (R : chars -> rule) eth data fl l4 tr id ev,
  libc_ok L -> flow_ok fl -> l4_packet eth data (fl_proto fl) (fl_src fl) (fl_dst fl) l4 ->
  ports_at data l4 (fl_sport fl) (fl_dport fl) ->
  (forall n c, asked tr n (Some c) -> says L c (R n) /\ (r_match (R n) <> None -> complete_plus data (fl_proto fl) l4)) ->
  written L P id eth data tr ev ->
  exists n c, ev = Wrote n [] /\ asked tr n (Some c) /\ accepts_packet (R n) fl data l4 /\
    forall n' c', asked tr n' (Some c') -> accepts_packet (R n') fl data l4 -> c_priority c' <= c_priority c.
Proof.
  intros L P R eth data fl l4 tr id ev HL FK P4 PA SY W.
  destruct (named_generic _ _ _ _ _ _ _ _ _ _ HL (decides_l4 L R eth data fl l4 HL FK P4 PA) W SY) as (n & c & t & E & T & H).
  rewrite (l4_line eth data (fl_proto fl) (fl_src fl) (fl_dst fl) l4) in T; auto.
  - injection T as <-. exists n, c. auto.
  - destruct FK as (_ & _ & [-> |[-> | ->]] & _); reflexivity.
  - destruct PA as (_ & _ & _ & _ & PA). lia.
Qed.
Print Assumptions C66_named.

(** ... and for an ICMP message that quotes no packet, one that accepts its
    addresses; for an echo request the identifier and sequence number are
    written. *)
Theorem C66_named_icmp : forall L P (R : chars -> rule) eth data t src dst tr id ev,
  libc_ok L -> icmp_message eth data t src dst -> ~ quoting eth t -> bytes 16 src -> bytes 16 dst ->
  (forall n c, asked tr n (Some c) -> says L c (R n)) ->
  written L P id eth data tr ev ->
  exists n c s, ev = Wrote n s /\ asked tr n (Some c) /\ accepts_addr (R n) src dst /\
    (forall n' c', asked tr n' (Some c') -> accepts_addr (R n') src dst -> c_priority c' <= c_priority c) /\
    (forall i q, echo eth data i q ->
       s = twoNumbers (if eth =? ETH_IP then "ICMP_ECHO: id=" else "ICMP6_ECHO_REQUEST: id=") i ", seq=" q).
Proof.
  intros L P R eth data t src dst tr id ev HL IM NQ B1 B2 SY W.
  destruct (named_generic _ _ R (fun _ => True) eth data _ tr id ev HL (decides_icmp L R eth data t src dst HL IM NQ B1 B2) W) as (n & c & s & E & T & A & AC & MX); [auto|].
  exists n, c, s. split; [auto|split; [auto|split; [auto|split; [auto|]]]]. intros i q EC. rewrite (echo_line _ _ _ _ EC) in T. congruence.
Qed.
Print Assumptions C66_named_icmp.

(** Packets not found are accepted by none of the trace flows. *)
Theorem C66_missed : forall L P may (R : chars -> rule) eth data fl l4 tr id w,
  libc_ok L -> flow_ok fl -> l4_packet eth data (fl_proto fl) (fl_src fl) (fl_dst fl) l4 ->
  ports_at data l4 (fl_sport fl) (fl_dport fl) ->
  (forall n c, asked tr n (Some c) -> says L c (R n) /\ (r_match (R n) <> None -> complete_plus data (fl_proto fl) l4)) ->
  texec L P may (tr ++ [(TLookup id eth data, Missed)]) w ->
  forall n c, asked tr n (Some c) -> ~ accepts_packet (R n) fl data l4.
Proof.
  intros L P may R eth data fl l4 tr id w HL FK P4 PA SY X.
  exact (missed_generic _ _ _ _ _ _ _ _ _ _ _ HL (decides_l4 L R eth data fl l4 HL FK P4 PA) X SY).
Qed.
Print Assumptions C66_missed.
Theorem C66_missed_icmp : forall L P may (R : chars -> rule) eth data t src dst tr id w,
  libc_ok L -> icmp_message eth data t src dst -> ~ quoting eth t -> bytes 16 src -> bytes 16 dst ->
  (forall n c, asked tr n (Some c) -> says L c (R n)) ->
  texec L P may (tr ++ [(TLookup id eth data, Missed)]) w ->
  forall n c, asked tr n (Some c) -> ~ accepts_addr (R n) src dst.
Proof.
  intros L P may R eth data t src dst tr id w HL IM NQ B1 B2 SY X.
  refine (missed_generic _ _ _ R (fun _ => True) _ _ _ _ _ _ HL (decides_icmp L R eth data t src dst HL IM NQ B1 B2) X _). auto.
Qed.
Print Assumptions C66_missed_icmp.

(** The listings show the trace flows requested. *)
Theorem C66_listing : forall L P may tr w c ev w', libc_ok L -> ntop_ok L P -> refname P = None -> texec L P may tr w ->
  (forall n c, asked tr n (Some c) -> typed (cmdArgs c n 0) /\ listable (cmdArgs c n 0) /\ no_wraps (cmdArgs c n 0)) ->
  is_action c "trace-list" -> c_name c = None -> tstep L P w (TRequest c) = Some (TCont w' ev) ->
  exists s vs now, ev = Answer s /\ json_text s (JArr vs) /\ requested tr now /\ listing L (fun _ => None) now vs.
Proof. exact trace_listed. Qed.
Print Assumptions C66_listing.
Theorem C66_names : forall L P may tr w c ev w', libc_ok L -> texec L P may tr w -> (forall n c, asked tr n (Some c) -> clean n) ->
  is_action c "trace-list-names" -> tstep L P w (TRequest c) = Some (TCont w' ev) ->
  exists s ns, ev = Answer s /\ json_text s (strings ns) /\ NoDup ns /\ forall n, In n ns <-> exists d, asked tr n (Some d).
Proof. exact trace_names. Qed.
Print Assumptions C66_names.

(** Names are used only while they exist, provided that requests to set
    give a name and that none is freed while a packet is between its lookup
    and the writing of it. *)
Theorem C66_safe_partial : forall L P tr w m, libc_ok L -> texec L P careful tr w -> careful w m -> tstep L P w m <> Some TBad.
Proof. exact names_safe. Qed.
Print Assumptions C66_safe_partial.
(** No name is freed twice, in any execution. *)
Theorem C66_freed_once : forall L P may tr w, libc_ok L -> texec L P may tr w -> tstep L P w TFree <> Some TBad.
Proof. exact free_safe. Qed.
Print Assumptions C66_freed_once.
(** There is one name in memory for each trace flow, provided that no
    request to set is refused or replaces a flow. *)
Theorem C66_memory_partial : forall L P may tr w, libc_ok L -> texec L P may tr w -> no_replacement tr ->
  in_memory w = zlen (x_set w) + (if x_free w =? 0 then 0 else 1).
Proof. exact no_leak. Qed.
Print Assumptions C66_memory_partial.

(** A packet is looked up and written while trace flows are set, replaced
    and deleted. *)
Definition tcmd (act : string) (name : option chars) (prio : Z) (protos : option (list chars)) : flowcmd :=
  mkFC (Some (str act)) name None prio protos None None None None None 0.
Definition ex_web : flowcmd := tcmd "trace-set" (Some (str "web")) 5 (Some [str "tcp"]).
Definition ex_all : flowcmd := tcmd "trace-set" (Some (str "all")) 1 None.
Definition ex_tcp : list Z :=
  [69; 0; 0; 40; 0; 0; 0; 0; 64; 6; 0; 0; 10; 0; 0; 1; 10; 0; 0; 2;
   3; 232; 0; 80; 0; 0; 0; 0; 0; 0; 0; 0; 80; 2; 0; 0; 0; 0; 0; 0; 7].
Definition ex_echo : list Z :=
  [69; 0; 0; 28; 0; 0; 0; 0; 64; 1; 0; 0; 10; 0; 0; 1; 10; 0; 0; 2; 8; 0; 0; 0; 0; 1; 1; 2].
Definition ex_TP : printer := ex2_printer None.
Definition ex_req : list tmove := [TRequest ex_all; TRequest ex_web].
Definition ex_trace : list (tmove * tevent) := [(TRequest ex_all, NoAnswer); (TRequest ex_web, NoAnswer)].
Example C66_ex :
  written ex2_lib ex_TP 7 ETH_IP ex_tcp ex_trace (Wrote (str "web") []) /\
  written ex2_lib ex_TP 8 ETH_IP ex_echo ex_trace (Wrote (str "web") (str "ICMP_ECHO: id=1, seq=258" ++ nl)) /\
  asked ex_trace (str "web") (Some ex_web) /\ says ex2_lib ex_web (mkRule (Some [6]) None None None None None) /\
  echo ETH_IP ex_echo 1 258.
Proof.
  split; [|split; [|split; [|split]]].
  - exists [(TRequest (tcmd "trace-delete" (Some (str "all")) 0 None), NoAnswer); (TFree, Answer (str "OK" ++ [0]))]. eexists. exists any_time. split.
    + apply (played_ok _ _ _ (ex_req ++ [TLookup 7 ETH_IP ex_tcp; TRequest (tcmd "trace-delete" (Some (str "all")) 0 None); TFree; TWrite 7])); [intros; exact I|].
      vm_compute. reflexivity.
    + intros e [H|[H|[]]]; discriminate.
  - exists []. eexists. exists any_time. split; [|intros e []].
    apply (played_ok _ _ _ (ex_req ++ [TLookup 8 ETH_IP ex_echo; TWrite 8])); [intros; exact I|]. vm_compute. reflexivity.
  - apply (asked_set [(TRequest ex_all, NoAnswer)]); reflexivity.
  - exists (str "web"). split; [reflexivity|]. unfold means. cbn. repeat split; auto.
    constructor; [|constructor]. exists (str "tcp"). split; [|right; left; auto]. repeat constructor.
  - exists 20, [10;0;0;1], [10;0;0;2], 0, 1, 1, 2. unfold ipv4_header, at_. split; [left; split; auto; split|].
    + split; [reflexivity|]. split; [reflexivity|]. split; [exists 69; cbn; repeat split; lia|]. cbn. repeat split; lia.
    + cbn. repeat split; lia.
    + cbn. repeat split; lia.
Qed.

(** A flow is set and deleted with care, and listed in between. *)
Definition ex_del : flowcmd := tcmd "trace-delete" (Some (str "web")) 0 None.
Definition ex_list : flowcmd := tcmd "trace-list" None 0 None.
Example C66_ex_careful :
  (exists tr w, texec ex2_lib ex_TP careful tr w /\ careful w TFree /\ tstep ex2_lib ex_TP w TFree <> None /\ no_replacement tr) /\
  (exists tr w, texec ex2_lib ex_TP any_time tr w /\ asked tr (str "web") (Some ex_web) /\
     (forall n c, asked tr n (Some c) -> typed (cmdArgs c n 0) /\ listable (cmdArgs c n 0) /\ no_wraps (cmdArgs c n 0)) /\
     exists w' ev, tstep ex2_lib ex_TP w (TRequest ex_list) = Some (TCont w' ev)).
Proof.
  assert (AK : forall n o, asked [(TRequest ex_web, NoAnswer)] n o -> o = None \/ n = str "web" /\ o = Some ex_web).
  { intros n o H. change [(TRequest ex_web, NoAnswer)] with ([] ++ [(TRequest ex_web, NoAnswer)]) in H.
    apply asked_inv in H. destruct H as [(c & E & _ & A & N & ->)|[(c & E & A & _)|(A & _)]].
    - injection E as <-. injection N as <-. auto.
    - injection E as <-. discriminate.
    - left. apply (asked_fun [] n); auto. constructor. }
  split.
  - do 2 eexists. split.
    + apply (played_ok _ _ _ [TRequest ex_web; TRequest ex_del]); [|vm_compute; reflexivity].
      intros w m [<-|[<-|[]]]; [intros _; discriminate|intros H; discriminate].
    + split; [intros p []|]. split; [discriminate|]. intros tr1 c ev tr2 n E A N.
      destruct tr1 as [|e1 [|e2 tr1]]; cbn in E.
      * injection E as <- <- _. split; [reflexivity|constructor].
      * injection E as _ <- <- _. discriminate.
      * injection E as _ _ E. destruct tr1; discriminate.
  - do 2 eexists. split; [apply (played_ok _ _ _ [TRequest ex_web]); [intros; exact I|vm_compute; reflexivity]|].
    split; [apply (asked_set []); reflexivity|]. split; [|do 2 eexists; vm_compute; reflexivity].
    intros n c H. destruct (AK n _ H) as [D|(-> & E)]; [discriminate|]. injection E as ->.
    repeat split; repeat constructor; cbn; try lia; discriminate.
Qed.

(** A trace flow that is deleted while a packet is traced: its name is used
    after it was freed. *)
Theorem C66_race_refuted : exists tr w, texec ex2_lib ex_TP any_time tr w /\ tstep ex2_lib ex_TP w (TWrite 7) = Some TBad.
Proof.
  destruct (played ex2_lib ex_TP tstart (ex_req ++ [TLookup 7 ETH_IP ex_tcp; TRequest (tcmd "trace-delete" (Some (str "web")) 0 None); TFree])) as [[tr w]|] eqn:E;
    [|vm_compute in E; discriminate].
  exists tr, w. split; [eapply played_ok; [intros; exact I|exact E]|]. vm_compute in E. injection E as _ <-. vm_compute. reflexivity.
Qed.
Print Assumptions C66_race_refuted.
(** A request to set without a name brings flowlb down. *)
Theorem C66_no_name_refuted : tstep ex2_lib ex_TP tstart (TRequest (tcmd "trace-set" None 0 None)) = Some TBad.
Proof. reflexivity. Qed.
Print Assumptions C66_no_name_refuted.
(** A request to set that is accepted is not answered. *)
Theorem C66_no_answer_refuted : exists tr w, texec ex2_lib ex_TP any_time (tr ++ [(TRequest ex_web, NoAnswer)]) w /\
  asked tr (str "web") None /\ map f_name (x_set w) = [str "web"].
Proof.
  destruct (played ex2_lib ex_TP tstart [TRequest ex_web]) as [[tr w]|] eqn:E; [|vm_compute in E; discriminate].
  exists [], w. split; [|split; [constructor|]].
  - apply (played_ok _ _ _ [TRequest ex_web]); [intros; exact I|]. rewrite E. vm_compute in E. injection E as <- _. reflexivity.
  - vm_compute in E. injection E as _ <-. reflexivity.
Qed.
Print Assumptions C66_no_answer_refuted.
(** The name of a trace flow that is replaced stays in memory. *)
Theorem C66_leak_refuted : exists tr w, texec ex2_lib ex_TP any_time tr w /\ zlen (x_set w) = 1 /\ x_free w = 0 /\ x_pk w = [] /\ in_memory w = 3.
Proof.
  destruct (played ex2_lib ex_TP tstart [TRequest ex_web; TRequest ex_web; TRequest ex_web]) as [[tr w]|] eqn:E; [|vm_compute in E; discriminate].
  exists tr, w. split; [eapply played_ok; [intros; exact I|exact E]|]. vm_compute in E. injection E as _ <-. vm_compute. auto.
Qed.
Print Assumptions C66_leak_refuted.
(** An echo request cut off after the identifier, which the handler itself
    reads safely, is read beyond its end. *)
Theorem C66_short_icmp_refuted : exists tr w, texec ex2_lib ex_TP any_time tr w /\ tstep ex2_lib ex_TP w (TWrite 7) = Some TStop /\
  printIcmp ETH_IP (firstn 26 ex_echo) = UB.
Proof.
  destruct (played ex2_lib ex_TP tstart (ex_req ++ [TLookup 7 ETH_IP (firstn 26 ex_echo)])) as [[tr w]|] eqn:E; [|vm_compute in E; discriminate].
  exists tr, w. split; [eapply played_ok; [intros; exact I|exact E]|]. vm_compute in E. injection E as _ <-. split; vm_compute; reflexivity.
Qed.
Print Assumptions C66_short_icmp_refuted.
