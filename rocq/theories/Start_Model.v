(** The start of the load-balancers, src/nfqlb/cmdLb.c:123-245 and
    cmdFlowLb.c:239-368: what the options do, and which steps are done on the
    shared memory of the statistics (Stats_Model.v).

    The trace server and the memory of the log level (logTraceServer,
    logConfigShm) are left out; the text printed is too. *)
From Coq Require Import String.
From Verif Require Import Base Cstr_Model Stats_Model Flow_Model FlowLb_Model Lb_Model Opt_Model.
From Verif Require Frag_Model.

(** The shared memory of a target (the number of its table and its own
    fwmark), the outcome of ioctl(TUNSETIFF) and of SIOCGIFMTU, and libc *)
Record env := mkEnv { e_shm : chars -> option (Z * Z); e_tun : chars -> bool; e_mtu : chars -> Z; e_lib : libc }.

(** The process ends, or serves the queues qs with these options. *)
Inductive booted (A : Type) := Exited | Serving (g : A) (qs : list Z) (qlen mtu reasm : Z).
Arguments Exited {A}.
Arguments Serving {A}.

(** get_mtu, tuntap.c:41-57: strcpy to the first member of struct ifreq, which
    has 40 bytes.  A name of 16 to 39 characters stays in it. *)
Definition getMtu (E : env) (dev : chars) : outcome Z := if 40 <? zlen dev + 1 then UB else Ok (e_mtu E dev).

(** The options common to both commands *)
Record common := mkC { m_mtu : chars; m_tun : option chars; m_reasm : chars; m_queue : chars; m_qlen : chars; m_shm : chars;
                       m_size : chars; m_buckets : chars; m_frag : chars; m_ttl : chars }.

(** cmdLb.c:175-244, cmdFlowLb.c:299-367: from the statistics on.  The
    arguments of fragTableCreate and nfqueueInit are unsigned. *)
Definition serve {A} (E : env) (i : Z) (c : common) (mk : Frag_Model.conf -> bool -> A) : outcome (list hlabel * booted A) :=
  let acts := [HTrunc (m_shm c); HZero (m_shm c)] in
  let mtu := atoi (m_mtu c) in
  if mtu <? 576 then Ok (acts, Exited)
  else
    do frag <- (match m_tun c with
                | None => Ok (Some (str "0"))
                | Some dev =>
                    if negb (e_tun E dev) then Ok None
                    else do t <- getMtu E dev; Ok (if t <? mtu then None else Some (m_frag c))
                end);
    match frag with
    | None => Ok (acts, Exited)
    | Some fr =>
        let g := Frag_Model.mkConf (u32 (atoi (m_size c))) (u32 (atoi (m_buckets c))) (u32 (atoi fr)) mtu (u32 (atoi (m_ttl c))) in
        let acts := acts ++ [HReady i (m_shm c) g] in
        match queues (m_queue c) with
        | Ok qs => Ok (acts, Serving (mk g (match m_tun c with None => false | Some _ => true end)) qs (u32 (atoi (m_qlen c))) mtu (atoi (m_reasm c)))
        | _ => Ok (acts, Exited)
        end
    end.

(** The LB tier: its table and the own fwmark (None: the program ends) *)
Definition tierOf (E : env) (lbshm : option chars) : option (option (Z * Z)) :=
  match lbshm with
  | None => Some None
  | Some n => match e_shm E n with None => None | Some x => Some (Some x) end
  end.

(** cmdLb, cmdLb.c:123-245, as process number i; udpEncap is passed to
    getHashKey as unsigned short *)
Definition cmdLb (E : env) (i : Z) (words : list chars) : outcome (list hlabel * booted lconf) :=
  do r <- parseOptions lbOpts words;
  match r with
  | Parsed [_; Some mtu; tun; Some reasm; Some encap; Some tshm; lbshm; Some notargets; Some mode; Some queue; Some qlen; Some ftshm;
            Some size; Some buckets; Some frag; Some ttl; _] _ =>
      match e_shm E tshm, tierOf E lbshm with
      | Some (t, _), Some tier =>
          serve E i (mkC mtu tun reasm queue qlen ftshm size buckets frag ttl) (fun g tu =>
            mkL (mkH false (u32 (atoi mode)) (atoi notargets) (-1) tier g tu false (e_lib E)) (atoi encap mod 65536) t)
      | _, _ => Ok ([], Exited)
      end
  | Parsed _ _ => UB
  | _ => Ok ([], Exited)
  end.

(** cmdFlowLb, cmdFlowLb.c:239-368 *)
Definition cmdFlowLb (E : env) (i : Z) (words : list chars) : outcome (list hlabel * booted hconf) :=
  do r <- parseOptions flowlbOpts words;
  match r with
  | Parsed [_; lbshm; Some mtu; tun; Some reasm; ping; Some notargets; Some nolb; Some mode; Some queue; Some qlen; Some ftshm;
            Some size; Some buckets; Some frag; Some ttl; _] _ =>
      match tierOf E lbshm with
      | Some tier =>
          serve E i (mkC mtu tun reasm queue qlen ftshm size buckets frag ttl) (fun g tu =>
            mkH (match ping with None => true | Some _ => false end) (u32 (atoi mode)) (atoi notargets) (atoi nolb) tier g tu false (e_lib E))
      | None => Ok ([], Exited)
      end
  | Parsed _ _ => UB
  | _ => Ok ([], Exited)
  end.
