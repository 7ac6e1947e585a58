(** Executions in which the load-balancer objects are mishandled (C43, C44, C42). *)
From Coq Require Import String Permutation.
From Verif Require Import Base Lists Cstr_Model Util_Proofs IpKey_Model IpKey_Spec Maglev_Model Flow_Model Flow_Spec Flow_Proofs Flow2_Proofs Flow3_Proofs
  Remote_Model FlowLb_Model FlowLb_Spec.
From Verif Require Frag_Model FlowLb_Proofs.

(** ** Schedules *)
Fixpoint play (chk : world -> move -> bool) (h : hconf) (w : world) (ms : list move) : option (world * list (move * list event)) :=
  match ms with
  | [] => Some (w, [])
  | m :: r =>
      if chk w m then
        match step h w m with
        | Some (Cont w' ev) => match play chk h w' r with Some (w2, tr) => Some (w2, (m, ev) :: tr) | None => None end
        | _ => None
        end
      else None
  end.
Definition nochk (w : world) (m : move) : bool := true.
Lemma exec_trans h may w tr w1 : exec h may w tr w1 -> forall tr' w2, exec h may w1 tr' w2 -> exec h may w (tr ++ tr') w2.
Proof.
  intros H tr' w2 H2. induction H2 as [w1|w1 tr1 w3 m ev w4 H2 IH O E]; [rewrite app_nil_r; auto|].
  rewrite app_assoc. eapply ex_step; eauto.
Qed.
Lemma exec_one h (may : world -> move -> Prop) w m ev w1 : may w m -> step h w m = Some (Cont w1 ev) -> exec h may w [(m, ev)] w1.
Proof. intros M E. apply (ex_step h may w [] w m ev w1); auto. constructor. Qed.
Lemma play_exec chk h (may : world -> move -> Prop) ms : (forall w m, In m ms -> chk w m = true -> may w m) -> forall w w2 tr,
  play chk h w ms = Some (w2, tr) -> exec h may w tr w2.
Proof.
  induction ms as [|m ms IH]; intros G w w2 tr H; cbn [play] in H.
  - assert (w2 = w /\ tr = []) as (-> & ->) by (split; congruence). constructor.
  - destruct (chk w m) eqn:C; [|discriminate].
    destruct (step h w m) as [[w1 ev| |]|] eqn:E; try discriminate. destruct (play chk h w1 ms) as [[w3 tr3]|] eqn:E2; [|discriminate].
    assert (w2 = w3 /\ tr = (m, ev) :: tr3) as (-> & ->) by (split; congruence).
    apply (exec_trans h may w [(m, ev)] w1).
    + apply exec_one; auto. apply G; auto. left; auto.
    + apply IH; auto. intros; apply G; auto. right; auto.
Qed.
(** [P] holds after the schedule. *)
Lemma play_sat chk h (may : world -> move -> Prop) w0 ms (P : world -> list (move * list event) -> bool) :
  (forall w m, In m ms -> chk w m = true -> may w m) ->
  match play chk h w0 ms with Some (w, tr) => P w tr | None => false end = true ->
  exists tr w, exec h may w0 tr w /\ P w tr = true.
Proof.
  intros G H. destruct (play chk h w0 ms) as [[w tr]|] eqn:E; [|discriminate]. exists tr, w.
  split; [apply (play_exec chk h may ms G w0 w tr E)|auto].
Qed.

(** The conditions of [orderly] that depend on the state *)
Definition orderlyb (w : world) (m : move) : bool :=
  (zlen (w_pk w) + zlen (t_set (w_st w)) + 2 <? 2147483648) &&
  match m with
  | FlowStep =>
      match w_flow w with
      | Act (Find t) _ =>
          forallb (fun a => match deref (w_st w) a with
                            | Some o => negb (streq (lb_target o) t) || negb (lb_ref o =? 0)
                            | None => true
                            end) (t_list (w_st w))
      | Act Retarget _ => false
      | _ => true
      end
  | _ => true
  end.
Definition ordinary (h : hconf) (m : move) : Prop :=
  match m with
  | Arrive _ _ eth data => good_packet eth data
  | Command c => good_command (h_lib h) c
  | _ => True
  end.
Lemma orderlyb_ok h w m : ordinary h m -> orderlyb w m = true -> orderly h w m.
Proof.
  unfold orderlyb, orderly. intros O H. apply Bool.andb_true_iff in H. destruct H as (H1 & H2). split; [lia|].
  destruct m; auto. destruct (w_flow w) as [r|[|t|] f]; auto; [|discriminate]. intros a o HI HD HT.
  rewrite forallb_forall in H2. specialize (H2 a HI). cbv beta in H2. rewrite HD in H2. 
  assert (ES : streq (lb_target o) t = true) by (apply streq_eq; auto). rewrite ES in H2. cbn in H2. destruct (Z.eqb_spec (lb_ref o) 0); auto; discriminate.
Qed.

(** A TCP packet, a UDP packet to port p, SCTP in UDP to port 9899 *)
Definition ex_ip (proto : Z) (rest : list Z) : list Z :=
  [69;0;0;40; 1;2;0;0; 64;proto;0;0; 10;0;0;1; 10;0;0;2] ++ rest.
Definition ex_tcp : list Z := ex_ip 6 [4;210; 0;80; 1;2;3;4].
Definition ex_udp0 : list Z := ex_ip 17 [4;210; 0;0; 1;2;3;4].
Definition ex_encap : list Z := ex_ip 17 ([9;9; 38;171; 0;0;0;0] ++ [4;210; 0;80; 7;7;7;7]).
Definition ex_native : list Z := ex_ip 132 [4;210; 0;80; 7;7;7;7].

(** Targets t1 and t2 with one active mark each *)
Definition ex_shm (t : chars) : option Z := if streq t (str "t1") then Some 1 else if streq t (str "t2") then Some 2 else None.
Definition ex_mem (r : Z) : mag := mkMag 1 1 [0] [[0]] [100 + r].
Definition ex_h (trace : bool) : hconf :=
  mkH false 4 0 0 None (Frag_Model.mkConf 1 1 1 1500 1) false trace ex_lib.
Definition ex_start (trace : bool) : world := start (ex_h trace) ex_shm ex_mem.

Definition setcmd (name target : chars) (prio : Z) (dports : option chars) (protos : option (list chars)) (ue : Z) : flowcmd :=
  mkFC (Some (str "set")) (Some name) (Some target) prio protos dports None None None None ue.
Definition delcmd (name : chars) : flowcmd := mkFC (Some (str "delete")) (Some name) None 0 None None None None None None 0.
Definition plain (name target : string) : flowcmd := setcmd (str name) (str target) 0 None None 0.
Definition fs (n : nat) : list move := repeat FlowStep n.
Definition ps (i : Z) (n : nat) : list move := repeat (PacketStep i) n.
Definition arrive (d : list Z) : move := Arrive 1 false 2048 d.

Lemma plain_good L name target p : own_name name -> zlen name <= 1000 -> good_command L (setcmd name target p None None 0).
Proof.
  intros O Z. split; [cbn; intros n E; assert (n = name) as -> by congruence; auto|]. intros _.
  exists name. split; auto. split; auto. split; [|split; [cbn; lia|cbn; congruence]].
  exists (mkRule None None None None None None). unfold means. cbn. repeat (split; auto). lia.
Qed.
Lemma delete_good L name : own_name name -> good_command L (delcmd name).
Proof. intros O. split; [cbn; intros n E; assert (n = name) as -> by congruence; auto|]. discriminate. Qed.
Lemma tcp_good : good_packet 2048 ex_tcp.
Proof.
  intros rc k fi H _ (P & _). assert (E : getHashKey (S (length ex_tcp)) 0 2048 ex_tcp =
    Ok (Some (0, mkKey (mapped [10;0;0;1]) (mapped [10;0;0;2]) [0;0;6;0;4;210;0;80], None))) by (vm_compute; reflexivity).
  rewrite E in H. assert (k = mkKey (mapped [10;0;0;1]) (mapped [10;0;0;2]) [0;0;6;0;4;210;0;80]) as -> by congruence. vm_compute in P. discriminate.
Qed.
Ltac own_solve := let r := fresh in intros r; cbn; discriminate.
Ltac move_solve := cbn; auto using tcp_good; try (apply plain_good; [own_solve|cbn; lia]); try (apply delete_good; own_solve).
Ltac moves_solve := let w := fresh in let m := fresh in let H := fresh in intros w m H; cbn in H;
  repeat (destruct H as [<-|H]; [intros _; move_solve|]); destruct H.

(** The flow gets another target: its old object is released while the flow
    still refers to it. *)
Definition sched_retarget : list move :=
  Command (plain "a" "t1") :: fs 3 ++ Command (plain "a" "t2") :: fs 7 ++ [arrive ex_tcp].
Definition bad_next (h : hconf) (m : move) (w : world) (tr : list (move * list event)) : bool :=
  match step h w m with Some Bad => true | _ => false end.
Lemma bad_next_ok h m w tr : bad_next h m w tr = true -> step h w m = Some Bad.
Proof. unfold bad_next. destruct (step h w m) as [[| |]|]; try discriminate. reflexivity. Qed.
Lemma retarget_bad : exists tr w m, exec (ex_h false) (fun _ m => ordinary (ex_h false) m) (ex_start false) tr w /\
  ordinary (ex_h false) m /\ step (ex_h false) w m = Some Bad.
Proof.
  destruct (play_sat nochk (ex_h false) (fun _ m => ordinary (ex_h false) m) (ex_start false) sched_retarget (bad_next (ex_h false) (PacketStep 0)))
    as (tr & w & H & B); [moves_solve|vm_compute; reflexivity|].
  exists tr, w, (PacketStep 0). split; auto. split; [exact I|]. apply (bad_next_ok _ _ _ tr). auto.
Qed.

(** A packet gives back the last reference; before it unlinks the object a
    new flow finds it.  There is one target only. *)
Definition sched_race : list move :=
  Command (plain "a" "t1") :: fs 3 ++ arrive ex_tcp :: ps 0 3 ++ Command (delcmd (str "a")) :: fs 2 ++ ps 0 1 ++
  Command (plain "b" "t1") :: fs 2 ++ ps 0 2 ++ fs 1 ++ [arrive ex_tcp].
Definition one_target (t : chars) (m : move) : Prop :=
  match m with Command c => c_target c = None \/ c_target c = Some t | _ => True end.
Lemma race_bad : exists tr w m, exec (ex_h false) (fun _ m => ordinary (ex_h false) m /\ one_target (str "t1") m) (ex_start false) tr w /\
  ordinary (ex_h false) m /\ one_target (str "t1") m /\ step (ex_h false) w m = Some Bad.
Proof.
  destruct (play_sat nochk (ex_h false) (fun _ m => ordinary (ex_h false) m /\ one_target (str "t1") m) (ex_start false) sched_race (bad_next (ex_h false) (PacketStep 1)))
    as (tr & w & H & B); [|vm_compute; reflexivity|].
  - intros w m H _. split; revert H; [|cbn; intuition (subst; cbn; auto)].
    intros H. cbn in H. repeat (destruct H as [<-|H]; [move_solve|]); destruct H.
  - exists tr, w, (PacketStep 1). split; auto. split; [exact I|]. split; [exact I|]. apply (bad_next_ok _ _ _ tr). auto.
Qed.

(** A request for another target is refused: no packets are needed. *)
Definition sched_refused : list move :=
  Command (plain "a" "t1") :: fs 3 ++ Command (setcmd (str "a") (str "t2") 0 (Some (str "x")) None 0) :: fs 8 ++
  [Command (mkFC (Some (str "list")) None None 0 None None None None None None 0)].
Definition commands_only (m : move) : Prop := match m with Command _ => True | FlowStep => True | _ => False end.
Lemma refused_bad : exists tr w m, exec (ex_h false) (fun _ m => commands_only m) (ex_start false) tr w /\
  commands_only m /\ step (ex_h false) w m = Some Bad.
Proof.
  destruct (play_sat nochk (ex_h false) (fun _ m => commands_only m) (ex_start false) sched_refused (bad_next (ex_h false) FlowStep))
    as (tr & w & H & B); [|vm_compute; reflexivity|].
  - intros w m H _. cbn in H. repeat (destruct H as [<-|H]; [exact I|]); destruct H.
  - exists tr, w, FlowStep. split; auto. split; [exact I|]. apply (bad_next_ok _ _ _ tr). auto.
Qed.

(** With packet traces the target is read after the release. *)
Definition sched_trace : list move :=
  Command (plain "a" "t1") :: fs 3 ++ arrive ex_tcp :: ps 0 3 ++ Command (delcmd (str "a")) :: fs 2 ++ ps 0 3.
Lemma trace_bad : exists tr w m, exec (ex_h true) (orderly (ex_h true)) (ex_start true) tr w /\
  orderly (ex_h true) w m /\ step (ex_h true) w m = Some Bad.
Proof.
  destruct (play_sat orderlyb (ex_h true) (orderly (ex_h true)) (ex_start true) sched_trace
     (fun w tr => orderlyb w (PacketStep 0) && bad_next (ex_h true) (PacketStep 0) w tr)%bool)
    as (tr & w & H & B); [|vm_compute; reflexivity|].
  - intros w m H. apply orderlyb_ok. revert H. cbn. intros H. repeat (destruct H as [<-|H]; [move_solve|]); destruct H.
  - apply Bool.andb_true_iff in B. destruct B as (B1 & B2).
    exists tr, w, (PacketStep 0). split; auto. split; [apply orderlyb_ok; [exact I|auto]|]. apply (bad_next_ok _ _ _ tr). auto.
Qed.

(** A request for the name of a companion: there is no object. *)
Definition sctpcmd (name target : chars) (prio : Z) (dports : option chars) (ue : Z) : flowcmd :=
  setcmd name target prio dports (Some [str "sctp"]) ue.
Definition sched_null : list move :=
  Command (sctpcmd (str "a") (str "t1") 0 None 9899) :: fs 4 ++ [Command (plain "#a" "t1")].
Lemma null_bad : exists tr w m, exec (ex_h false) (fun _ m => commands_only m) (ex_start false) tr w /\
  commands_only m /\ step (ex_h false) w m = Some Bad /\ t_list (w_st w) = [1] /\ references (w_st w) 1 = flows (w_st w) 1.
Proof.
  destruct (play_sat nochk (ex_h false) (fun _ m => commands_only m) (ex_start false) sched_null
     (fun w tr => bad_next (ex_h false) FlowStep w tr && (streq (t_list (w_st w)) [1] && (references (w_st w) 1 =? flows (w_st w) 1)))%bool)
    as (tr & w & H & B); [|vm_compute; reflexivity|].
  - intros w m H _. cbn in H. repeat (destruct H as [<-|H]; [exact I|]); destruct H.
  - apply Bool.andb_true_iff in B. destruct B as (B1 & B2). apply Bool.andb_true_iff in B2. destruct B2 as (B2 & B3).
    exists tr, w, FlowStep. split; auto. split; [exact I|]. split; [apply (bad_next_ok _ _ _ tr); auto|]. split; [apply streq_eq; auto|lia].
Qed.

(** A refused definition of a new flow leaves an object nobody refers to. *)
Definition quiescentb (w : world) : bool := (idle (w_flow w) && forallb idle (w_pk w))%bool.
Lemma quiescentb_ok w : quiescentb w = true -> quiescent w.
Proof.
  unfold quiescentb, quiescent. intros H. apply Bool.andb_true_iff in H. destruct H as (H1 & H2). split; auto.
  apply Forall_forall. apply forallb_forall. auto.
Qed.
Definition liveb (s : state) (a : Z) : bool := match deref s a with Some _ => true | None => false end.
Lemma liveb_ok s a : liveb s a = true -> live s a.
Proof. unfold liveb, live. destruct (deref s a) as [o|]; [eauto|discriminate]. Qed.
Definition sched_leak : list move := Command (setcmd (str "a") (str "t1") 0 (Some (str "x")) None 0) :: fs 3.
Lemma refused_leak : exists tr w, exec (ex_h false) (fun _ m => commands_only m) (ex_start false) tr w /\
  quiescent w /\ live (w_st w) 1 /\ t_set (w_st w) = [] /\ w_flow w = Ret (Reply "Invalid dports").
Proof.
  destruct (play_sat nochk (ex_h false) (fun _ m => commands_only m) (ex_start false) sched_leak
     (fun w tr => quiescentb w && liveb (w_st w) 1 && match t_set (w_st w) with [] => true | _ => false end
        && match w_flow w with Ret (Reply m) => String.eqb m "Invalid dports" | _ => false end)%bool)
    as (tr & w & H & B); [|vm_compute; reflexivity|].
  - intros w m H _. cbn in H. repeat (destruct H as [<-|H]; [exact I|]); destruct H.
  - apply Bool.andb_true_iff in B. destruct B as (B & B3). apply Bool.andb_true_iff in B. destruct B as (B & B2). apply Bool.andb_true_iff in B. destruct B as (B & B1).
    exists tr, w. split; auto. split; [apply quiescentb_ok; auto|]. split; [apply liveb_ok; auto|].
    destruct (t_set (w_st w)); [|discriminate]. split; auto. destruct (w_flow w) as [[|m]|]; try discriminate. apply String.eqb_eq in B3. congruence.
Qed.

(** ** Uninterrupted execution is one of the executions *)
Scheme prog_mind := Induction for prog Sort Prop with result_mind := Induction for result Sort Prop.
Combined Scheme prog_result_ind from prog_mind, result_mind.

(** The program ends in a Stop when it is not interrupted. *)
Fixpoint haltp (p : prog) (s : state) : bool :=
  match p with Ret _ => false | Act _ f => haltr (f s) end
with haltr (r : result) : bool :=
  match r with Next _ s p => haltp p s | BadUse => false | Stop => true end.

Lemma znth_mid {A} (l : list A) x r : znth (l ++ x :: r) (zlen l) = Some x.
Proof.
  unfold znth, zlen. destruct (Z.ltb_spec (Z.of_nat (length l)) 0); [lia|]. rewrite Nat2Z.id, nth_error_app2, Nat.sub_diag; auto.
Qed.
Lemma zupd_mid {A} (l : list A) x r y : zupd (l ++ x :: r) (zlen l) y = l ++ y :: r.
Proof.
  unfold zupd, zlen. destruct (Z.ltb_spec (Z.of_nat (length l)) 0); [lia|]. rewrite Nat2Z.id.
  induction l as [|z l IH]; cbn; auto. f_equal. apply IH. lia.
Qed.
Lemma run_exec h (may : world -> move -> Prop) fl pk1 pk2 : (forall w, may w (PacketStep (zlen pk1))) ->
  (forall p s r s' ev, runp p s = Some (r, s', ev) ->
     exists tr, exec h may (mkW s fl (pk1 ++ p :: pk2)) tr (mkW s' fl (pk1 ++ Ret r :: pk2))) /\
  (forall x, match x with
     | Next _ s p => forall r s' ev, runp p s = Some (r, s', ev) ->
        exists tr, exec h may (mkW s fl (pk1 ++ p :: pk2)) tr (mkW s' fl (pk1 ++ Ret r :: pk2))
     | _ => True end).
Proof.
  intros M. apply prog_result_ind; auto.
  - intros r s r' s' ev H. cbn in H. assert (r' = r /\ s' = s) as (-> & ->) by (split; congruence). exists []. constructor.
  - intros l f IH s r s' ev H. cbn [runp] in H. specialize (IH s). destruct (f s) as [e1 s1 p1| |] eqn:E; try discriminate.
    cbn [runr] in H. destruct (runp p1 s1) as [[[r1 s2] e2]|] eqn:E1; [|discriminate].
    assert (r1 = r /\ s2 = s') as (-> & ->) by (split; congruence). destruct (IH r s' e2 eq_refl) as (tr & T).
    exists ([(PacketStep (zlen pk1), e1)] ++ tr). eapply exec_trans; [|exact T]. apply exec_one; auto.
    cbn [step w_pk w_st w_flow]. rewrite znth_mid, E, zupd_mid. auto.
  - intros _ s p IH r s' ev. apply IH.
Qed.
Lemma halt_exec h (may : world -> move -> Prop) fl pk1 pk2 : (forall w, may w (PacketStep (zlen pk1))) ->
  (forall p s, haltp p s = true ->
     exists tr w, exec h may (mkW s fl (pk1 ++ p :: pk2)) tr w /\ step h w (PacketStep (zlen pk1)) = Some Halt) /\
  (forall x, match x with
     | Next _ s p => haltp p s = true ->
        exists tr w, exec h may (mkW s fl (pk1 ++ p :: pk2)) tr w /\ step h w (PacketStep (zlen pk1)) = Some Halt
     | _ => True end).
Proof.
  intros M. apply prog_result_ind; auto.
  - intros r s H. discriminate.
  - intros l f IH s H. cbn [haltp] in H. specialize (IH s). destruct (f s) as [e1 s1 p1| |] eqn:E; try discriminate.
    + cbn [haltr] in H. destruct (IH H) as (tr & w & T & D). exists ([(PacketStep (zlen pk1), e1)] ++ tr), w. split; auto.
      eapply exec_trans; [|exact T]. apply exec_one; auto. cbn [step w_pk w_st w_flow]. rewrite znth_mid, E, zupd_mid. auto.
    + eexists [], _. split; [constructor|]. cbn [step w_pk w_st w_flow]. rewrite znth_mid, E. auto.
Qed.

(** ** Uninterrupted execution of the parts *)
Definition after (ev : list event) (x : option (answer * state * list event)) : option (answer * state * list event) :=
  match x with Some (r, s', ev') => Some (r, s', ev ++ ev') | None => None end.
Lemma after_nil x : after [] x = x.
Proof. destruct x as [[[r s] e]|]; auto. Qed.
Lemma run_act l f s ev s' p : f s = Next ev s' p -> runp (Act l f) s = after ev (runp p s').
Proof. intros E. cbn [runp]. rewrite E. reflexivity. Qed.
Lemma run_read reg hash k s r i : reg s = Some r -> mM (t_mem s r) <> 0 ->
  znth (mlookup (t_mem s r)) (hash mod mM (t_mem s r)) = Some i ->
  match (if i <? 0 then Some i else znth (mactive (t_mem s r)) i) with
  | Some fw => runp (readTable reg hash k) s = runp (k fw) s
  | None => runp (readTable reg hash k) s = None
  end.
Proof.
  intros R M L. destruct (Z.ltb_spec i 0) as [N|N].
  - unfold readTable. rewrite (run_act _ _ _ [] s (k i)); [apply after_nil|]. rewrite R, (proj2 (Z.eqb_neq _ _) M).
    unfold aget. rewrite L. destruct (Z.ltb_spec i 0); [|lia]. auto.
  - unfold readTable. cbn [runp]. rewrite R, (proj2 (Z.eqb_neq _ _) M). unfold aget. rewrite L. destruct (Z.ltb_spec i 0); [lia|].
    cbn [runr runp]. rewrite R. destruct (znth (mactive (t_mem s r)) i) as [fw|]; cbn [runr]; auto.
    destruct (runp (k fw) s) as [[[? ?] ?]|]; auto.
Qed.
Lemma run_release l a k s o : deref s a = Some o -> a <> 0 -> 2 <= lb_ref o <= 2147483648 ->
  runp (release l a k) s = after [Gave a] (runp k (put s a (mkLb (lb_target o) (lb_ref o - 1) (lb_region o) (lb_freed o)))).
Proof.
  intros D N R. unfold release. rewrite (proj2 (Z.eqb_neq _ _) N). apply run_act. rewrite D.
  assert (E : s32 (lb_ref o - 1) = lb_ref o - 1) by (apply FlowLb_Proofs.s32_small; lia). rewrite E.
  destruct (Z.ltb_spec (lb_ref o - 1) 0); [lia|]. destruct (Z.eqb_spec (lb_ref o - 1) 0); [lia|]. auto.
Qed.
Lemma run_lookup h k eth data u kont s a u' s' : flowLookup (h_ping h) (t_set s) k eth (Some data) u = Ok (a, u') ->
  a <> 0 -> lockRef s a = Some s' -> runp (lookup h k eth data u kont) s = after [Took a] (runp (kont a u') s').
Proof. intros E N L. apply run_act. rewrite E, (proj2 (Z.eqb_neq _ _) N), L. auto. Qed.
Lemma run_lookup0 h k eth data u kont s u' : flowLookup (h_ping h) (t_set s) k eth (Some data) u = Ok (0, u') ->
  runp (lookup h k eth data u kont) s = runp (kont 0 u') s.
Proof. intros E. unfold lookup. rewrite (run_act _ _ _ [] s (kont 0 u')); [apply after_nil|]. rewrite E. auto. Qed.

(** ** UDP packets to port 0 *)
Definition p0_flow : frec := mkF (str "a") 0 1 None None None None None None 0.
Definition p0_state (r : Z) : state :=
  mkSt [mkLb (str "t1") r 1 false] [1] [p0_flow] (Frag_Model.fragTableCreate (h_frag (ex_h false))) ex_shm ex_mem [].
Definition p0_packet : prog := packet (ex_h false) 1 false 2048 ex_udp0.
Definition p0_key : key := mkKey (mapped [10;0;0;1]) (mapped [10;0;0;2]) [0;0;17;0;4;210;0;0].
Lemma p0_hash : getHashKey (S (length ex_udp0)) 0 2048 ex_udp0 = Ok (Some (0, p0_key, None)).
Proof. vm_compute. reflexivity. Qed.
Lemma p0_lookup : flowLookup false [p0_flow] p0_key 2048 (Some ex_udp0) 0 = Ok (1, 0).
Proof. vm_compute. reflexivity. Qed.
Lemma p0_lock r : lockRef (p0_state r) 1 = Some (p0_state (s32 (r + 1))).
Proof. reflexivity. Qed.
Lemma p0_run r : 1 <= r < 2147483647 -> runp p0_packet (p0_state r) = Some (Verdict 101, p0_state (r + 1), [Took 1; Took 1; Gave 1]).
Proof.
  intros R0. destruct (Z.eq_dec r 2147483646) as [->|NE]; [vm_compute; reflexivity|].
  assert (R : 1 <= r < 2147483646) by lia. unfold p0_packet, packet. rewrite p0_hash. change (Z.land 0 3 =? 0) with true. cbv iota. unfold classify.
  rewrite (run_lookup _ _ _ _ _ _ (p0_state r) 1 0 (p0_state (r + 1))); [|exact p0_lookup|lia|rewrite p0_lock, FlowLb_Proofs.s32_small by lia; auto].
  change ((kproto p0_key =? 17) && (kdport p0_key =? 0)) with true. cbv iota. rewrite p0_hash.
  rewrite (run_lookup _ _ _ _ _ _ (p0_state (r + 1)) 1 0 (p0_state (r + 1 + 1))); [|exact p0_lookup|lia|rewrite p0_lock, FlowLb_Proofs.s32_small by lia; auto].
  unfold forward. change (1 =? 0) with false. cbv iota.
  match goal with |- context [readTable ?reg ?hash ?k] =>
    pose proof (run_read reg hash k (p0_state (r + 1 + 1)) 1 0) as RR end.
  rewrite RR; [|reflexivity|cbn; lia|change (mM _) with 1; rewrite Z.mod_1_r; reflexivity].
  match goal with |- context [runp (release _ _ ?k) ?s] => rewrite (run_release Quiet 1 k s (mkLb (str "t1") (r + 1 + 1) 1 false)) end;
    [|reflexivity|lia|cbn [lb_ref]; lia].
  cbn [lb_ref]. replace (r + 1 + 1 - 1) with (r + 1) by lia. reflexivity.
Qed.
Lemma p0_halt : haltp p0_packet (p0_state 2147483647) = true.
Proof. vm_compute. reflexivity. Qed.
Definition or_port0 (h : hconf) (w : world) (m : move) : Prop :=
  ordinary h m \/ exists now done, m = Arrive now done 2048 ex_udp0.
Lemma p0_reach n : 0 <= n < 2147483647 -> exists tr pk, zlen pk = n /\ Forall (fun p => idle p = true) pk /\
  exec (ex_h false) (or_port0 (ex_h false)) (ex_start false) tr (mkW (p0_state (1 + n)) (Ret (Reply "OK")) pk).
Proof.
  intros N. assert (H : 0 <= n) by lia. revert N. pattern n. apply natlike_ind; auto.
  - intros _. destruct (play nochk (ex_h false) (ex_start false) (Command (plain "a" "t1") :: fs 3)) as [[w tr]|] eqn:E; [|vm_compute in E; discriminate].
    exists tr, []. split; auto. split; [constructor|].
    assert (w = mkW (p0_state (1 + 0)) (Ret (Reply "OK")) []) as <-.
    { vm_compute in E. vm_compute. congruence. }
    apply (play_exec nochk (ex_h false) _ (Command (plain "a" "t1") :: fs 3)); auto.
    intros w0 m HI _. left. revert HI. cbn. intros HI. repeat (destruct HI as [<-|HI]; [move_solve|]); destruct HI.
  - intros x X IH R. destruct IH as (tr & pk & E1 & E2 & E3); [lia|].
    pose proof (p0_run (1 + x) ltac:(lia)) as RN.
    destruct (run_exec (ex_h false) (or_port0 (ex_h false)) (Ret (Reply "OK")) pk []) as (RE & _).
    { intros w. left. exact I. }
    destruct (RE _ _ _ _ _ RN) as (tr2 & T). exists (tr ++ [(Arrive 1 false 2048 ex_udp0, [])] ++ tr2), (pk ++ [Ret (Verdict 101)]).
    split; [unfold zlen in *; rewrite app_length; cbn [length]; lia|]. split; [apply Forall_app; split; auto|].
    eapply exec_trans; [exact E3|]. replace (1 + Z.succ x) with (1 + x + 1) by lia. eapply exec_trans; [|exact T].
    apply exec_one; [right; exists 1, false; reflexivity|reflexivity].
Qed.
Lemma port0_leak : exists tr w, exec (ex_h false) (or_port0 (ex_h false)) (ex_start false) tr w /\
  quiescent w /\ references (w_st w) 1 = 2147483647 /\ flows (w_st w) 1 = 1.
Proof.
  destruct (p0_reach 2147483646) as (tr & pk & E1 & E2 & E3); [lia|]. eexists _, _. split; [exact E3|].
  split; [split; auto|]. split; reflexivity.
Qed.
Lemma port0_abort : exists tr w m, exec (ex_h false) (or_port0 (ex_h false)) (ex_start false) tr w /\
  or_port0 (ex_h false) w m /\ step (ex_h false) w m = Some Halt.
Proof.
  destruct (p0_reach 2147483646) as (tr & pk & E1 & E2 & E3); [lia|].
  destruct (halt_exec (ex_h false) (or_port0 (ex_h false)) (Ret (Reply "OK")) pk []) as (HE & _).
  { intros w. left. exact I. }
  destruct (HE _ _ p0_halt) as (tr2 & w & T & D). eexists _, w, (PacketStep (zlen pk)). split; [|split; [left; exact I|exact D]].
  eapply exec_trans; [exact E3|]. eapply exec_trans; [|exact T].
  apply exec_one; [right; exists 1, false; reflexivity|reflexivity].
Qed.
