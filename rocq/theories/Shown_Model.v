(** The texts that the packet handler of flowlb traces, src/nfqlb/cmdFlowLb.c:81-231.

    For one packet, while nothing else happens: the calls of tracef in their order, given
    logconfig->tracemask.  Log texts (warning, info) are not included.  write() to the tun device
    writes all.  The verdict is that of FlowLb_Model.packet.  *)
From Coq Require Import String.
From Verif Require Import Base Cstr_Model IpKey_Model Maglev_Model Rangeset_Model Flow_Model FlowLb_Model Print_Model Trace_Model.
From Verif Require Shm_Model Frag_Model.

(** nfqlb.h:95-100 *)
Definition TRACE_PACKET : Z := 2.
Definition TRACE_FRAG : Z := 4.
Definition TRACE_SCTP : Z := 16.
Definition TRACE_FLOWS : Z := 64.
(** TRACE(m), log.h:42 *)
Definition on (mask m : Z) (l : list chars) : list chars := if Z.land mask m =? 0 then [] else l.
(** if (tflow != NULL) *)
Definition told (tn : option chars) (l : list chars) : list chars := match tn with None => [] | Some _ => l end.
(** A text with a newline; %d is Shm_Model.sdec *)
Definition ln (s : chars) : chars := s ++ nl.

(** protostr, iputils.c:512-527.  Used by one thread at a time; see [pstep] below. *)
Definition protoName (p : Z) : option chars :=
  if p =? 6 then Some (str "tcp") else if p =? 17 then Some (str "udp") else if p =? 132 then Some (str "sctp")
  else if p =? 1 then Some (str "icmp") else if p =? 58 then Some (str "icmp6") else None.
Definition protoText (p : Z) : chars := match protoName p with Some s => s | None => dec p end.

(** cmdFlowLb.c:142 and 146-152 *)
Definition matchLine (n : chars) : chars := nl ++ ln (str "Match for trace-flow: " ++ n).
Definition packetLine (P : printer) (proto : chars) (len : Z) (k : key) : chars :=
  ln (str "proto=" ++ proto ++ str ", len=" ++ dec len ++ str ", " ++ ntop P (k_src k) ++ str " " ++ dec (ksport k) ++ str " -> " ++ ntop P (k_dst k) ++ str " " ++ dec (kdport k)).

(** The lookup of the trace flow, cmdFlowLb.c:138-140 *)
Definition traceName (mask : Z) (w : tworld) (k : key) (eth : Z) (data : list Z) : outcome (option chars) :=
  if Z.land mask TRACE_FLOWS =? 0 then Ok None
  else
    match flowLookup true (x_set w) k eth (Some data) 0 with
    | Ok (a, _) => if a =? 0 then Ok None else match nameAt w a with Some n => Ok (Some n) | None => UB end
    | _ => UB
    end.

(** cmdFlowLb.c:141-156 *)
Definition packetText (P : printer) (tn : option chars) (eth : Z) (data : list Z) (k : key) (u : Z) : outcome (list chars) :=
  match tn with
  | None => Ok []
  | Some n =>
      obind (printIcmp eth data) (fun icmp =>
      Ok ([matchLine n] ++ (match icmp with [] => [] | _ => [icmp] end) ++ [packetLine P (protoText (kproto k)) (zlen data) k] ++
          (if (kproto k =? 17) && negb (u =? 0) then [ln (str "udpencap=" ++ dec u)] else [])))
  end.

(** lookup[] and active[] of a table; negative: no target *)
Definition tableMark (m : mag) (hash : Z) : outcome Z :=
  if mM m =? 0 then UB else obind (aget (mlookup m) (hash mod mM m)) (fun i => if i <? 0 then Ok i else aget (mactive m) i).

(** injectFrag, cmdFlowLb.c:81-91 *)
Definition injectText (mask : Z) (tun : bool) (d : list Z) : list chars :=
  on mask TRACE_FRAG [if tun then ln (str "Frag injected, len=" ++ dec (zlen d) ++ str ", rc=" ++ dec (zlen d)) else ln (str "Frag dropped, len=" ++ dec (zlen d))].

(** cmdFlowLb.c:201-213, and whether handleFirstFragment returned 0 *)
Definition firstText (h : hconf) (mask : Z) (tn : option chars) (s : state) (now : Z) (done : bool) (k : key) (fi : option (list Z)) (fw : Z) : outcome (list chars * bool) :=
  match fi with
  | None => UB
  | Some id =>
      match Frag_Model.call_op (h_frag h) (t_ft s) (Frag_Model.CFirst now (key_bytes (with_id k id)) fw true) done with
      | Ok (_, ob) =>
          match retOf ob with
          | None => UB
          | Some (rc, _) =>
              let failed := ln (str "FAILED: Handle first fragment") in
              Ok (on mask TRACE_FRAG [ln (str "First fragment")] ++ flat_map (injectText mask (h_tun h)) (handedOf ob) ++
                  (if rc =? 0 then [] else on mask TRACE_FRAG [failed] ++ told tn [failed]), rc =? 0)
          end
      | _ => UB
      end
  end.

(** cmdFlowLb.c:215-229 *)
Definition usedText (mask : Z) (target : chars) (k : key) (len fw : Z) : list chars :=
  let lines := [ln (str "Using LB; " ++ target); ln (str "Packet; proto=" ++ dec (kproto k) ++ str ", len=" ++ dec len ++ str ", fwmark=" ++ dec fw)] in
  on mask (Z.lor TRACE_PACKET TRACE_SCTP) (if Z.land mask TRACE_PACKET =? 0 then if kproto k =? 132 then lines else [] else lines).

(** cmdFlowLb.c:177-230 *)
Definition forwardText (h : hconf) (mask : Z) (tn : option chars) (s : state) (now : Z) (done : bool) (len rc : Z) (k : key) (fi : option (list Z)) (a : Z) : outcome (list chars) :=
  if a =? 0 then Ok (on mask TRACE_PACKET [ln (str "Failed flowLookup")] ++ told tn [ln (str "NO target, fwmark=" ++ Shm_Model.sdec (h_nolb h))])
  else
    match deref s a with
    | None => UB
    | Some o =>
        obind (tableMark (t_mem s (lb_region o)) (hashKey k (h_mode h))) (fun fw =>
        if fw <? 0 then Ok (told tn [ln (str "NO servers, target=" ++ lb_target o ++ str ", fwmark=" ++ Shm_Model.sdec (h_notargets h))])
        else
          let target := told tn [ln (str "target=" ++ lb_target o ++ str ", fwmark=" ++ Shm_Model.sdec fw)] in
          if Z.land rc 1 =? 0 then Ok (target ++ usedText mask (lb_target o) k len fw)
          else obind (firstText h mask tn s now done k fi fw) (fun r =>
               Ok (target ++ fst r ++ (if snd r then usedText mask (lb_target o) k len fw else []))))
    end.

(** cmdFlowLb.c:133-230 *)
Definition classifyText (h : hconf) (P : printer) (mask : Z) (w : tworld) (s : state) (now : Z) (done : bool) (eth : Z) (data : list Z) (rc : Z) (k : key) (fi : option (list Z)) : outcome (list chars) :=
  match flowLookup (h_ping h) (t_set s) k eth (Some data) 0 with
  | Ok (a, u) =>
      obind (traceName mask w k eth data) (fun tn =>
      obind (packetText P tn eth data k u) (fun l1 =>
      if (kproto k =? 17) && (kdport k =? u) then
        let l2 := on mask TRACE_SCTP [ln (str "Udp encapsulated sctp packet on port " ++ dec u)] in
        match getHashKey (S (length data)) u eth data with
        | Ok None => Ok (l1 ++ l2 ++ on mask TRACE_SCTP [ln (str "FAILED: Re-compute key with udpencap")])
        | Ok (Some (rc', k', fi')) =>
            match flowLookup (h_ping h) (t_set s) k' eth (Some data) 0 with
            | Ok (a', _) =>
                obind (forwardText h mask tn s now done (zlen data) rc' k' (match fi' with None => fi | _ => fi' end) a') (fun l4 =>
                Ok (l1 ++ l2 ++ (if a' =? 0 then on mask TRACE_SCTP [ln (str "Failed flowLookup for udpencap")] else []) ++ l4))
            | _ => UB
            end
        | _ => UB
        end
      else obind (forwardText h mask tn s now done (zlen data) rc k fi a) (fun l2 => Ok (l1 ++ l2))))
  | _ => UB
  end.

(** Other fragments, cmdFlowLb.c:119-130 *)
Definition otherText (h : hconf) (mask : Z) (s : state) (now : Z) (done : bool) (k : key) (data : list Z) : outcome (list chars) :=
  match Frag_Model.call_op (h_frag h) (t_ft s) (Frag_Model.CStore now (key_bytes k) data) done with
  | Ok (_, ob) =>
      match retOf ob with
      | Some (0, Some v) => Ok (on mask TRACE_FRAG [ln (str "Handle non-first frag locally fwmark=" ++ Shm_Model.sdec v)])
      | Some (0, None) => UB
      | Some (rc, _) => Ok (on mask TRACE_FRAG [ln (str "Fragment " ++ (if 0 <? rc then str "stored" else str "dropped"))])
      | None => UB
      end
  | _ => UB
  end.

(** packetHandleFn, cmdFlowLb.c:93-231 *)
Definition handlerText (h : hconf) (P : printer) (mask : Z) (w : tworld) (s : state) (now : Z) (done : bool) (eth : Z) (data : list Z) : outcome (list chars) :=
  match getHashKey (S (length data)) 0 eth data with
  | Ok None => Ok []
  | Ok (Some (rc, k, fi)) =>
      let whole := classifyText h P mask w s now done eth data rc k fi in
      if Z.land rc 3 =? 0 then whole
      else
        let local := if Z.land rc 1 =? 0 then otherText h mask s now done k data else whole in
        match h_tier h with
        | None => local
        | Some (r, own) =>
            obind (tableMark (t_mem s r) (hashKeyAddresses k)) (fun fw =>
            if (0 <=? fw) && negb (fw =? own) then Ok (on mask TRACE_FRAG [ln (str "Fragment to LB tier. fw=" ++ Shm_Model.sdec fw)]) else local)
        end
  | _ => UB
  end.

(** ** The name of the protocol, with threads

    protostr is called with NULL for buf: unknown protocols are written to a static buffer
    (iputils.c:514-516, 525), that the tracef after it reads.  [p_ptr] is what the thread has got:
    a constant text, or the buffer. *)
Inductive ptext := Const (s : chars) | Buffer.
Record pstate := mkP { p_buf : chars; p_ptr : nat -> option ptext }.
Inductive pmove := PName (t : nat) (p : Z) | PTrace (t : nat).
Definition pstart : pstate := mkP [] (fun _ => None).
Definition pset (f : nat -> option ptext) (t : nat) (x : option ptext) : nat -> option ptext := fun i => if Nat.eqb i t then x else f i.
(** One step, and what tracef shows as the protocol *)
Definition pstep (s : pstate) (m : pmove) : option (pstate * option chars) :=
  match m with
  | PName t p =>
      match p_ptr s t, protoName p with
      | Some _, _ => None
      | None, Some c => Some (mkP (p_buf s) (pset (p_ptr s) t (Some (Const c))), None)
      | None, None => Some (mkP (dec p) (pset (p_ptr s) t (Some Buffer)), None)
      end
  | PTrace t =>
      match p_ptr s t with
      | None => None
      | Some (Const c) => Some (mkP (p_buf s) (pset (p_ptr s) t None), Some c)
      | Some Buffer => Some (mkP (p_buf s) (pset (p_ptr s) t None), Some (p_buf s))
      end
  end.
