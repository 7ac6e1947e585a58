(** Load-balancing without flows, src/nfqlb/cmdLb.c: the packet handler, executed by any number
    of packet threads.  State, steps and shared tables are as in FlowLb_Model.v; there are no
    objects and no flows.  Traces are left out. *)
From Coq Require Import String.
From Verif Require Import Base Cstr_Model IpKey_Model Maglev_Model Flow_Model FlowLb_Model.
From Verif Require Frag_Model.

(** Options, cmdLb.c:125-205: those in common with flowlb, sctp_encap, and the shared memory
    of the targets *)
Record lconf := mkL { l_h : hconf; l_encap : Z; l_target : Z }.

(** cmdLb.c:92-114 *)
Definition balance (g : lconf) (now : Z) (done : bool) (rc : Z) (k : key) (fi : option (list Z)) : prog :=
  readTable (fun _ => Some (l_target g)) (hashKey k (h_mode (l_h g))) (fun fw =>
    if fw <? 0 then Ret (Verdict (h_notargets (l_h g)))
    else if Z.land rc 1 =? 0 then Ret (Verdict fw)
    else firstFragment (l_h g) now done k fi fw).

(** packetHandleFn, cmdLb.c:53-115; injectFrag, 40-50, is as in flowlb *)
Definition lbPacket (g : lconf) (now : Z) (done : bool) (eth : Z) (data : list Z) : prog :=
  match getHashKey (S (length data)) (l_encap g) eth data with
  | Ok None => Ret (Verdict (-1))
  | Ok (Some (rc, k, fi)) =>
      if Z.land rc 3 =? 0 then balance g now done rc k fi
      else tier (l_h g) k (if Z.land rc 1 =? 0 then otherFragment (l_h g) now done k data
                           else balance g now done rc k fi)
  | _ => stop
  end.

(** The process; the threads of cmdLb.c:230-243 are those of the packets *)
Record lworld := mkLW { lw_st : state; lw_pk : list prog }.
Inductive lmove :=
| LArrive (now : Z) (done : bool) (eth : Z) (data : list Z)
| LStep (i : Z)
| LOther (mem : Z -> mag).
Inductive loutcome := LCont (w : lworld) | LBad | LHalt.
Definition lstep (g : lconf) (w : lworld) (m : lmove) : option loutcome :=
  match m with
  | LArrive now done eth data => Some (LCont (mkLW (lw_st w) (lw_pk w ++ [lbPacket g now done eth data])))
  | LStep i =>
      match znth (lw_pk w) i with
      | Some (Act _ f) =>
          Some (match f (lw_st w) with
                | Next _ s p => LCont (mkLW s (zupd (lw_pk w) i p))
                | BadUse => LBad
                | Stop => LHalt
                end)
      | _ => None
      end
  | LOther mem => Some (LCont (mkLW (set_env (lw_st w) (t_shm (lw_st w)) mem) (lw_pk w)))
  end.
Definition lstart (g : lconf) (mem : Z -> mag) : lworld :=
  mkLW (mkSt [] [] [] (Frag_Model.fragTableCreate (h_frag (l_h g))) (fun _ => None) mem []) [].
