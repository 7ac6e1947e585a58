(** Tun devices: starts, long names, examples (C86). *)
From Coq Require Import String.
From Verif Require Import Base Lists Cstr_Model Util_Proofs Tun_Model Tun_Spec Tun_Proofs Tun2_Proofs.
From Verif Require Start_Model.

(** What the start of Start_Model.v takes as given, computed by the kernel *)
Definition tun_env (K : kern) (opened sock : bool) (i : Z) (E : Start_Model.env) : Start_Model.env :=
  Start_Model.mkEnv (Start_Model.e_shm E)
    (fun dev => negb (snd (tun_alloc K opened i dev (Z.lor IFF_TUN IFF_NO_PI)) <? 0))
    (fun dev => match get_mtu (fst (tun_alloc K opened i dev (Z.lor IFF_TUN IFF_NO_PI))) sock dev with Ok m => m | _ => -1 end)
    (Start_Model.e_lib E).
Lemma open_start K opened sock i E n mtu : zlen n < 40 ->
  ((exists K' fd, openTun K opened sock i (Some n) mtu = Ok (K', Some fd)) <->
   Start_Model.e_tun (tun_env K opened sock i E) n = true /\ mtu <= Start_Model.e_mtu (tun_env K opened sock i E) n).
Proof.
  intro L. cbn [tun_env Start_Model.e_tun Start_Model.e_mtu openTun]. destruct (tun_alloc K opened i n (Z.lor IFF_TUN IFF_NO_PI)) as [K1 fd]. cbn [fst snd].
  assert (M : exists m, get_mtu K1 sock n = Ok m).
  { unfold get_mtu, strcpyName. destruct sock; [|eauto]. destruct (40 <? zlen n + 1) eqn:X; [lia|]. cbn [obind]. eauto. }
  destruct M as [m ->]. cbn [obind]. destruct (fd <? 0) eqn:F; cbn [negb].
  - split; [intros [K' [fd' H]]; discriminate|intros [Q _]; discriminate].
  - destruct (m <? mtu) eqn:X.
    + split; [intros [K' [fd' H]]; discriminate|intros [_ Q]; lia].
    + split; [intros _; split; [reflexivity|lia]|intros _; eauto].
Qed.
Lemma long_ub K sock i n mtu K1 : 40 <= zlen n -> 0 <= i -> tun_alloc K true i n (Z.lor IFF_TUN IFF_NO_PI) = (K1, i) -> sock = true ->
  openTun K true sock i (Some n) mtu = UB.
Proof.
  intros L Hi E ->. unfold openTun. rewrite E. destruct (i <? 0) eqn:X; [lia|]. unfold get_mtu, strcpyName. destruct (40 <? zlen n + 1) eqn:Y; [reflexivity|lia].
Qed.

(** ** Examples *)
Definition dev0 : tdev := mkDev (str "nfqlb0") KTun 1500 true None false false.
Definition host0 : thost := mkTH (mkKern [dev0] true (fun _ _ => [])) [].
Lemma host0_fresh : fresh_host host0.
Proof.
  split; [reflexivity|]. split; [repeat constructor; intros []|]. repeat constructor.
Qed.
Lemma name_ok : good_name (str "nfqlb0") /\ good_name (str "nfqlb1").
Proof.
  split; (split; [reflexivity|]; split; [reflexivity|]; split; [repeat constructor|]; cbn; intro H; repeat (destruct H as [H|H]; [discriminate|]); exact H).
Qed.
Fixpoint trun (h : thost) (l : list tev) : option (list (tev * tout) * thost) :=
  match l with
  | [] => Some ([], h)
  | e :: r => match tevent h e with
              | Ok (h1, o) => match trun h1 r with Some (t, h2) => Some ((e, o) :: t, h2) | None => None end
              | _ => None
              end
  end.
Definition ip4 (x : Z) : list Z := [69; x].
Definition session : list tev :=
  [TStart 1 (Some (str "nfqlb0")) 1500 true true; TStart 2 (Some (str "nfqlb0")) 1500 true true;
   TStart 3 (Some (str "nfqlb1")) 1500 true true; TInject 1 [ip4 1; ip4 2]; TInject 3 [ip4 3];
   TUp (str "nfqlb1") true; TInject 3 [ip4 4]; TEnd 1; TStart 4 (Some (str "nfqlb0")) 1501 true true; TStart 5 (Some (str "nfqlb0")) 576 true true].
Lemma session_run : exists t h, trun host0 session = Some (t, h) /\
  map snd t = [Runs; Ends; Runs; Received [(str "nfqlb0", ip4 1); (str "nfqlb0", ip4 2)] 0; Received [] 1; Done;
               Received [(str "nfqlb1", ip4 4)] 0; Done; Ends; Runs].
Proof. eexists. eexists. split; [vm_compute; reflexivity|reflexivity]. Qed.
Lemma step1 : thist host0 [(TStart 1 (Some (str "nfqlb0")) 1500 true true, Runs)]
  (mkTH (mkKern [mkDev (str "nfqlb0") KTun 1500 true (Some 1) false false] true (fun _ _ => [])) [mkLbp 1 (Some (str "nfqlb0")) 1]).
Proof.
  change [(TStart 1 (Some (str "nfqlb0")) 1500 true true, Runs)] with ([] ++ [(TStart 1 (Some (str "nfqlb0")) 1500 true true, Runs)]).
  eapply th_cons; [constructor| |vm_compute; reflexivity]. intros i tun mtu a b H. injection H as <- <- <- <- <-. split; [lia|]. split; [reflexivity|]. exact (proj1 name_ok).
Qed.

(** ** Long names: 15 characters and more *)
Definition n15 : chars := str "fragments-of-lb".
Definition longA : chars := n15 ++ str "-a".
Definition longB : chars := n15 ++ str "-b".
Definition hostL : thost := mkTH (mkKern [mkDev n15 KTun 1500 true None false false] true (fun _ _ => [])) [].
Lemma long_run : zlen n15 = 15 /\ longA <> longB /\ fresh_host hostL /\
  exists h1 h2, tevent hostL (TStart 1 (Some longA) 1500 true true) = Ok (h1, Runs) /\
    tevent h1 (TInject 1 [ip4 1]) = Ok (h1, Received [(n15, ip4 1)] 0) /\
    tevent h1 (TStart 2 (Some longB) 1500 true true) = Ok (h2, Ends).
Proof.
  split; [reflexivity|]. split; [discriminate|]. split; [split; [reflexivity|]; split; [repeat constructor; intros []|]; repeat constructor|].
  eexists. eexists. split; [vm_compute; reflexivity|]. split; vm_compute; reflexivity.
Qed.
