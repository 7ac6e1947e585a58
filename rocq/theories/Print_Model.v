(** The listing of flows, src/lib/flow.c:458-629.

    Output is the text written to the stream; fprintf does not fail.  The
    read lock is held while the set is printed (flowSetPrintNames too). *)
From Coq Require Import String.
From Verif Require Import Base Cstr_Model Rangeset_Model Match_Model Flow_Model.

(** inet_ntop(AF_INET6, ..) of 16 bytes, f->match_count (not part of the
    model of flows), user_ref2string (None: NULL) and the former contents of
    char buf[1024] *)
Record printer := mkPr {
  ntop : list Z -> chars; counts : frec -> Z; refname : option (Z -> chars); printbuf : list Z }.

(** A newline *)
Definition nl : chars := [10].

(** The characters before the first 0 of a buffer; without one the functions
    reading it leave the buffer. *)
Fixpoint strbuf (b : list Z) : outcome chars :=
  match b with
  | [] => UB
  | c :: b' => if c =? 0 then Ok [] else do s <- strbuf b'; Ok (c :: s)
  end.

(** The bytes of a 64-bit word in memory (network order) *)
Definition wordbytes (w : Z) : list Z := map (fun i => Z.land (Z.shiftr w i) 255) [56; 48; 40; 32; 24; 16; 8; 0].

(** printCidr, flow.c:472-478 *)
Definition printCidr (P : printer) (c : cidr) : chars :=
  str "    """ ++ ntop P (wordbytes (fst (c_adr c)) ++ wordbytes (snd (c_adr c))) ++ str "/" ++ dec (printedLength c) ++ str """".

(** printCidrs, flow.c:479-486 *)
Fixpoint printCidrs (P : printer) (l : list cidr) : chars :=
  match l with
  | [] => []
  | c :: l' => printCidr P c ++ (match l' with [] => [] | _ => str "," ++ nl end) ++ printCidrs P l'
  end.

(** The loops flow.c:494-499 and 526-531 *)
Fixpoint printToks (l : list chars) : chars :=
  match l with
  | [] => []
  | t :: l' => str "    """ ++ t ++ str """" ++ (match l' with [] => [] | _ => str "," ++ nl end) ++ printToks l'
  end.

(** printPorts, flow.c:488-500: rangeSetString never returns a negative
    value *)
Definition printPorts (P : printer) (t : rset) : outcome chars :=
  do (b, rc) <- rangeSetString (S (Z.to_nat (rangeSetSize t))) t (printbuf P);
  if rc <? 0 then Ok []
  else do s <- strbuf b; do l <- toks (length s) [44; 32] s; Ok (printToks l).

(** protostr, flow.c:502-510 *)
Definition protostr (p : Z) : chars :=
  if p =? 6 then str "tcp" else if p =? 17 then str "udp" else if p =? 132 then str "sctp" else [].

(** printProto, flow.c:511-518.  The array has 4 elements (flow.c:131), the
    ones behind the protocols are 0.  The first is printed without looking. *)
Definition printProto (l : list Z) : chars :=
  str "  ""protocols"": [ """ ++ protostr (hd 0 l) ++ str """" ++
  concat (map (fun q => str ", """ ++ protostr q ++ str """") (tl l)) ++ str " ]".

(** printMatch, flow.c:520-532: the first token ends at a comma, the others
    at a comma or blank *)
Definition printMatch (P : printer) (m : list item) : outcome chars :=
  do (b, rc) <- matchString m (printbuf P);
  if rc <? 0 then Ok []
  else
    do s <- strbuf b;
    match strtok_r [44] s with
    | None => Ok []
    | Some (t, rest) => do l <- toks (length rest) [44; 32] rest; Ok (printToks (t :: l))
    end.

(** An optional member: fprintf(out, ",\n"), then the print *)
Definition optional {A} (o : option A) (print : A -> outcome chars) : outcome chars :=
  match o with
  | None => Ok []
  | Some a => do s <- print a; Ok (str "," ++ nl ++ s)
  end.
Definition section (name : chars) (s : chars) : chars :=
  str "  """ ++ name ++ str """: [" ++ nl ++ s ++ nl ++ str "  ]".

(** printFlow, flow.c:534-585.  %u shows the priority as unsigned. *)
Definition printFlow (P : printer) (f : frec) : outcome chars :=
  do pr <- optional (f_protocols f) (fun l => Ok (printProto l));
  do ds <- optional (f_dsts f) (fun l => Ok (section (str "dests") (printCidrs P l)));
  do dp <- optional (f_dports f) (fun t => omap (section (str "dports")) (printPorts P t));
  do ss <- optional (f_srcs f) (fun l => Ok (section (str "srcs") (printCidrs P l)));
  do sp <- optional (f_sports f) (fun t => omap (section (str "sports")) (printPorts P t));
  do m <- optional (f_match f) (fun m => omap (section (str "match")) (printMatch P m));
  Ok (str "{" ++ nl ++
      str "  ""name"": """ ++ f_name f ++ str """," ++ nl ++
      str "  ""priority"": " ++ dec (u32 (f_priority f)) ++
      pr ++ ds ++ dp ++ ss ++ sp ++ m ++
      (if 0 <? f_udpencap f then str "," ++ nl ++ str "  ""udpencap"": " ++ dec (f_udpencap f) else []) ++
      str "," ++ nl ++ str "  ""matches_count"": " ++ dec (counts P f) ++
      (match refname P with
       | None => []
       | Some g => str "," ++ nl ++ str "  ""user_ref"": """ ++ g (f_ref f) ++ str """"
       end) ++
      nl ++ str "}").

(** The loop flow.c:594-598 *)
Fixpoint printFlows (P : printer) (l : list frec) : outcome chars :=
  match l with
  | [] => Ok []
  | f :: l' =>
      do s <- printFlow P f;
      do r <- printFlows P l';
      Ok (s ++ (match l' with [] => [] | _ => str "," ++ nl end) ++ r)
  end.

(** flowSetPrint, flow.c:587-610; None is NULL *)
Definition flowSetPrint (P : printer) (set : list frec) (name : option chars) : outcome chars :=
  match name with
  | None => do s <- printFlows P set; Ok (str "[" ++ s ++ str "]" ++ nl)
  | Some n => match findName set n with None => Ok [] | Some f => printFlow P f end
  end.

(** flowSetPrintNames, flow.c:612-629 *)
Definition flowSetPrintNames (set : list frec) : chars :=
  match set with
  | [] => str "[]" ++ nl
  | f :: l =>
      str "[" ++ nl ++ str "  """ ++ f_name f ++ str """" ++
      concat (map (fun g => str "," ++ nl ++ str "  """ ++ f_name g ++ str """") l) ++
      nl ++ str "]" ++ nl
  end.
