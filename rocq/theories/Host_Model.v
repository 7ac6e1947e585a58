(** A whole host: the commands on tables (Lines_Model.v), lb and flowlb started from
    their lines (Start_Model.v), the lines of flow-set and flow-delete
    (Client_Model.v), and the packets the load-balancers get (Lb_Model.v,
    FlowLb_Model.v), one after the other, on shared memory as bytes (Shm_Model.v).

    A mapping of a table is a region: a number that is never used again; the file
    and the view of it are in [s_map] of Lines_Model.v.  The tables a
    load-balancer reads are decoded from the bytes at the moment of the step.  One
    event is over before the next begins (interleavings are in FlowLb_Model.v,
    Lb_Model.v and Shm_Model.v).  A flow client talks to the flowlb with the number
    given ($NFQLB_FLOW_ADDRESS, remoteCmd.c:87-103, cmdFlowLb.c:485-500).  The statistics are left out
    (Stats_Model.v). *)
From Coq Require Import String.
From Verif Require Import Base Cstr_Model Maglev_Model Opt_Model Remote_Model Flow_Model Shm_Model Lines_Model FlowLb_Model Lb_Model Start_Model Client_Model.

(** The words of a table from offset off on *)
Fixpoint loads (d : list Z) (off : Z) (n : nat) : list Z :=
  match n with
  | O => []
  | S n => match lds d off with Ok x => x :: loads d (off + 4) n | _ => [] end
  end.
(** What a view shows of a file, magDataDyn_map, maglevdyn.c:53-70 *)
Definition tableAt (v : view) (d : list Z) : mag :=
  mkMag (v_M v) (v_N v) (loads d (v_look v) (Z.to_nat (v_M v))) [] (loads d (v_act v) (Z.to_nat (v_N v))).
Definition memOf (fs : shmfs) (r : Z) : mag :=
  match s_map fs r with
  | Some (i, v) => tableAt v (s_data fs i)
  | None => mkMag 0 0 [] [] []
  end.

(** A load-balancer that runs *)
Inductive job := JLb (g : lconf) (s : state) | JFlow (h : hconf) (s : state).
Record host := mkHost { o_fs : shmfs; o_next : Z; o_proc : Z -> option job }.
Definition noHost : host := mkHost emptyFs 0 (fun _ => None).

(** The value of the option at a place of the table of options *)
Definition valueAt (opts : list opt) (words : list chars) (i : Z) : option chars :=
  match parseOptions opts words with
  | Ok (Parsed vals _) => match znth vals i with Some v => v | None => None end
  | _ => None
  end.
(** A mapping that the process keeps: the view is made from the header *)
Definition mapped (fs : shmfs) (r : Z) (shm : option chars) : outcome shmfs :=
  match shm with
  | None => Ok fs
  | Some n => do p <- mapTable fs r n; Ok (fst p)
  end.
(** The objects a start sees: ownFwmark is the first word (struct SharedData,
    nfqueue.h:4-7).  [mapped] has read the header. *)
Definition seen (fs : shmfs) (region : chars -> Z) (n : chars) : option (Z * Z) :=
  match openShm fs n with
  | None => None
  | Some i => match lds (s_data fs i) 0 with Ok own => Some (region n, own) | _ => None end
  end.
Definition is (t : option chars) (n : chars) : bool := match t with Some t => streq n t | None => false end.

(** What else a start depends on: the tun devices, their mtu, and libc *)
Record devs := mkDevs { dv_tun : chars -> bool; dv_mtu : chars -> Z; dv_lib : libc }.
Definition envOf (fs : shmfs) (region : chars -> Z) (D : devs) : env := mkEnv (seen fs region) (dv_tun D) (dv_mtu D) (dv_lib D).

Definition setProc (p : Z -> option job) (k : Z) (j : option job) : Z -> option job := fun i => if i =? k then j else p i.
Definition freshState (h : hconf) : state :=
  mkSt [] [] [] (Frag_Model.fragTableCreate (h_frag h)) (fun _ => None) (fun _ => mkMag 0 0 [] [] []) [].

(** cmdLb, cmdLb.c:123-245: the target's table is region o_next, that of the tier
    the next one *)
Definition startLb (o : host) (k : Z) (D : devs) (ws : list chars) : outcome (host * bool) :=
  let fs := o_fs o in let t := valueAt lbOpts ws 5 in
  do f1 <- mapped fs (o_next o) t;
  do f2 <- mapped f1 (o_next o + 1) (valueAt lbOpts ws 6);
  do r <- cmdLb (envOf fs (fun n => if is t n then o_next o else o_next o + 1) D) k ws;
  match snd r with
  | Exited => Ok (mkHost fs (o_next o) (setProc (o_proc o) k None), false)
  | Serving g _ _ _ _ => Ok (mkHost f2 (o_next o + 2) (setProc (o_proc o) k (Some (JLb g (freshState (l_h g))))), true)
  end.
(** cmdFlowLb, cmdFlowLb.c:239-368: only the table of the tier is mapped *)
Definition startFlowLb (o : host) (k : Z) (D : devs) (ws : list chars) : outcome (host * bool) :=
  let fs := o_fs o in
  do f1 <- mapped fs (o_next o) (valueAt flowlbOpts ws 1);
  do r <- cmdFlowLb (envOf fs (fun _ => o_next o) D) k ws;
  match snd r with
  | Exited => Ok (mkHost fs (o_next o) (setProc (o_proc o) k None), false)
  | Serving h _ _ _ _ => Ok (mkHost f1 (o_next o + 1) (setProc (o_proc o) k (Some (JFlow h (freshState h)))), true)
  end.

(** The shared memory as a process finds it at a step; an object that is mapped
    becomes region o_next *)
Definition now (o : host) (s : state) : state :=
  set_env s (fun n => match openShm (o_fs o) n with None => None | Some _ => Some (o_next o) end) (memOf (o_fs o)).

(** What is seen: the status and the output of a line, whether a load-balancer
    serves, the result of the packet handler; NotSent: a flow client ended before
    it sent anything; NoServer: there is no such load-balancer *)
Inductive oobs := Ended (status : Z) (out : chars) | Started (b : bool) | Marked (fw : Z) | NotSent | NoServer.

(** A line of flow-set or flow-delete, from the words to the status; the mapping
    made for a new object is that of cmdFlowLb.c:440-453 *)
Definition flowLine (o : host) (k : Z) (c : client) (ws : list chars) (junk : chars) : outcome (host * oobs) :=
  match sends c ws with
  | Ok (Some t) =>
      match o_proc o k with
      | Some (JFlow h s) =>
          do q <- readFlowCmd t;
          match q with
          | None => do e <- talkEnd (junk) []; Ok (o, Ended (snd e) (fst e))
          | Some (fc, _) =>
              match runp (command (h_lib h) fc) (now o s) with
              | Some (Reply m, s', _) =>
                  do a <- replyText fc m;
                  do e <- talkEnd (junk) (firstn 64 (written a));
                  do fs <- mapped (o_fs o) (o_next o)
                             (match znth (t_objs s') (zlen (t_objs s)) with None => None | Some b => Some (lb_target b) end);
                  Ok (mkHost fs (o_next o + 1) (setProc (o_proc o) k (Some (JFlow h s'))), Ended (snd e) (fst e))
              | _ => UB
              end
          end
      | _ => Ok (o, NoServer)
      end
  | Ok None | Die => Ok (o, NotSent)
  | UB => UB
  | Fuel => Fuel
  end.

(** A packet: the verdict (Nfq_Model.v makes a mark or a drop of it) *)
Definition onPacket (o : host) (k : Z) (nw : Z) (done : bool) (eth : Z) (data : list Z) : outcome (host * oobs) :=
  match o_proc o k with
  | None => Ok (o, NoServer)
  | Some (JLb g s) =>
      match runp (lbPacket g nw done eth data) (now o s) with
      | Some (Verdict v, s', _) => Ok (mkHost (o_fs o) (o_next o) (setProc (o_proc o) k (Some (JLb g s'))), Marked v)
      | _ => UB
      end
  | Some (JFlow h s) =>
      match runp (packet h nw done eth data) (now o s) with
      | Some (Verdict v, s', _) => Ok (mkHost (o_fs o) (o_next o) (setProc (o_proc o) k (Some (JFlow h s'))), Marked v)
      | _ => UB
      end
  end.

(** What happens on the host: a line on tables is executed, a load-balancer is
    started as process k, a flow client talks to process k ([junk]: what is in its
    buffer), a packet comes to process k, process k is ended *)
Inductive oevent :=
| OTable (e : ienv) (ws : list chars)
| OStart (k : Z) (D : devs) (ws : list chars)
| OFlow (k : Z) (ws : list chars) (junk : chars)
| OPacket (k nw : Z) (done : bool) (eth : Z) (data : list Z)
| OKill (k : Z).
Definition odo (o : host) (v : oevent) : outcome (host * oobs) :=
  match v with
  | OTable e ws => do r <- exec e (o_fs o) ws; let '(fs, st, out) := r in Ok (mkHost fs (o_next o) (o_proc o), Ended st out)
  | OStart k D ws =>
      match ws with
      | c :: ws' =>
          if streq c (str "lb") then do r <- startLb o k D ws'; Ok (fst r, Started (snd r))
          else if streq c (str "flowlb") then do r <- startFlowLb o k D ws'; Ok (fst r, Started (snd r))
          else Ok (o, Started false)
      | [] => Ok (o, Started false)
      end
  | OFlow k ws junk =>
      match ws with
      | c :: ws' =>
          if streq c (str "flow-set") then flowLine o k FlowSet ws' junk
          else if streq c (str "flow-delete") then flowLine o k FlowDelete ws' junk
          else Ok (o, Ended 1 [])
      | [] => Ok (o, Ended 0 [])
      end
  | OPacket k nw done eth data => onPacket o k nw done eth data
  | OKill k => Ok (mkHost (o_fs o) (o_next o) (setProc (o_proc o) k None), Ended 0 [])
  end.
Fixpoint odos (o : host) (vs : list oevent) : outcome (host * list oobs) :=
  match vs with
  | [] => Ok (o, [])
  | v :: r => do p <- odo o v; do q <- odos (fst p) r; Ok (fst q, snd p :: snd q)
  end.
