(** Command line options: src/lib/cmd.c:53-145, the tables of options of the
    commands, and the queues given by --queue (cmdLb.c:230-243,
    cmdFlowLb.c:354-367, extension/cmdXlb.c).

    getopt_long_only is the C library's (glibc, posix/getopt.c, with an empty
    list of short options and POSIXLY_CORRECT unset): words that are not
    options are moved behind the options, "--" ends the options, a name may
    be abbreviated if that is unambiguous.  What is printed is left out. *)
From Coq Require Import String.
From Verif Require Import Base Cstr_Model Rangeset_Model Remote_Model.

(** struct Option, cmd.h: the name, whether arg is not NULL, the value of
    the variable before, REQUIRED *)
Record opt := mkOpt { p_name : chars; p_var : bool; p_default : option chars; p_req : bool }.

(** cmd.c:104-107: options with a variable whose value is "no" take no
    argument, and neither do those without variable. *)
Definition takesArg (o : opt) : bool :=
  p_var o && match p_default o with Some d => negb (streq d (str "no")) | None => true end.

(** strncmp(name, a, strlen(a)) == 0 *)
Fixpoint isPrefix (a name : chars) : bool :=
  match a, name with
  | [], _ => true
  | x :: a', y :: n' => (x =? y) && isPrefix a' n'
  | _, _ => false
  end.

(** The numbers of the options with a property *)
Fixpoint indices (p : chars -> bool) (i : Z) (opts : list opt) : list Z :=
  match opts with
  | [] => []
  | o :: r => if p (p_name o) then i :: indices p (i + 1) r else indices p (i + 1) r
  end.

(** process_long_option: the first option with exactly this name, otherwise
    the only one whose name begins so *)
Definition findOpt (opts : list opt) (name : chars) : option Z :=
  match indices (streq name) 0 opts with
  | i :: _ => Some i
  | [] => match indices (isPrefix name) 0 opts with
          | [i] => Some i
          | _ => None
          end
  end.

(** A word that is an option; the name in it and the value after '=' *)
Definition isOption (w : chars) : bool :=
  match w with c :: _ :: _ => c =? 45 | _ => false end.
Definition optText (w : chars) : chars :=
  match w with
  | _ :: c :: r => if c =? 45 then r else c :: r
  | _ => []
  end.
Definition optName (w : chars) : chars := match split_at 61 (optText w) with Some (a, _) => a | None => optText w end.
Definition optValue (w : chars) : option chars := match split_at 61 (optText w) with Some (_, b) => Some b | None => None end.

(** The result of parseOptions: -1, 0 after help, otherwise the variables
    and the words that are not options (argv from optind) *)
Inductive presult := Refused | Help | Parsed (vals : list (option chars)) (rest : list chars).

(** required, cmd.c:109-110, and verifyRequiredOptions, 53-75 *)
Fixpoint reqMask (i : Z) (opts : list opt) : Z :=
  match opts with
  | [] => 0
  | o :: r => Z.lor (if p_req o then Z.shiftl 1 i else 0) (reqMask (i + 1) r)
  end.
Definition verify (opts : list opt) (got : Z) : bool := reqMask 0 opts =? Z.land got (reqMask 0 opts).

(** The loop of parseOptions, cmd.c:113-132: [skipped] are the words passed
    over. *)
Fixpoint parseLoop (opts : list opt) (words : list chars) (vals : list (option chars)) (got : Z) (skipped : list chars) : presult :=
  let finish rest := if verify opts got then Parsed vals (skipped ++ rest) else Refused in
  match words with
  | [] => finish []
  | w :: ws =>
      if negb (isOption w) then parseLoop opts ws vals got (skipped ++ [w])
      else if streq w (str "--") then finish ws
      else
        match findOpt opts (optName w) with
        | None => Refused
        | Some i =>
            match znth opts i with
            | None => Refused
            | Some o =>
                let got' := Z.lor got (Z.shiftl 1 i) in
                let set v := if p_var o then zupd vals i v else vals in
                if takesArg o then
                  match optValue w with
                  | Some v => if streq (p_name o) (str "help") then Help else parseLoop opts ws (set (Some v)) got' skipped
                  | None =>
                      match ws with
                      | [] => Refused
                      | v :: ws' => if streq (p_name o) (str "help") then Help else parseLoop opts ws' (set (Some v)) got' skipped
                      end
                  end
                else
                  match optValue w with
                  | Some _ => Refused
                  | None => if streq (p_name o) (str "help") then Help else parseLoop opts ws (set None) got' skipped
                  end
            end
        end
  end.

(** parseOptions, cmd.c:94-137; words is argv without the command's name *)
Definition parseOptions (opts : list opt) (words : list chars) : outcome presult :=
  if 32 <=? zlen opts then Die else Ok (parseLoop opts words (map p_default opts) 0 []).

(** ** The tables of the commands *)
Definition flag (n : string) : opt := mkOpt (str n) false None false.
Definition val (n d : string) : opt := mkOpt (str n) true (Some (str d)) false.
Definition text (n : string) : opt := mkOpt (str n) true None false.
Definition must (n : string) : opt := mkOpt (str n) true None true.

(** cmdLb.c:141-162; defaultTargetShm and DEFAULT_TRACE_ADDRESS from nfqlb.h *)
Definition lbOpts : list opt :=
  [flag "help"; val "mtu" "1500"; text "tun"; val "reassembler" "0"; val "sctp_encap" "0"; val "tshm" "nfqlb"; text "lbshm";
   val "notargets_fwmark" "-1"; val "hash_mode" "1"; val "queue" "2"; val "qlength" "1024"; val "ft_shm" "ftshm"; val "ft_size" "500";
   val "ft_buckets" "500"; val "ft_frag" "100"; val "ft_ttl" "200"; val "trace_address" "unix:nfqlb-trace"].
(** cmdFlowLb.c:257-278 *)
Definition flowlbOpts : list opt :=
  [flag "help"; text "lbshm"; val "mtu" "1500"; text "tun"; val "reassembler" "0"; val "promiscuous_ping" "no"; val "notargets_fwmark" "-1";
   val "nolb_fwmark" "-1"; val "hash_mode" "1"; val "queue" "2"; val "qlength" "1024"; val "ft_shm" "ftshm"; val "ft_size" "500";
   val "ft_buckets" "500"; val "ft_frag" "100"; val "ft_ttl" "200"; val "trace_address" "unix:nfqlb-trace"].
(** cmdConfig.c:19-27, 78-86 *)
Definition configOpts : list opt := [flag "help"; val "shm" "nfqlb"; text "index"].
(** cmdShm.c:40-49, 71-77, 103-109, 139-145 *)
Definition initOpts : list opt := [flag "help"; val "ownfw" "0"; val "shm" "nfqlb"; val "N" "32"; val "M" "997"].
Definition deleteOpts : list opt := [flag "help"; must "shm"].
Definition showOpts : list opt := [flag "help"; val "shm" "nfqlb"].
Definition statsOpts : list opt := [flag "help"; val "ft_shm" "ftshm"].
(** cmdFwmark.c:26-37 *)
Definition fwmarkOpts : list opt := [flag "help"; text "shm"; text "proto"; must "src"; must "dst"; val "hash_mode" "1"].
(** cmdFlow.c:24-40, 104-110, 133-139 *)
Definition flowSetOpts : list opt :=
  [flag "help"; must "name"; must "target"; text "prio"; text "protocols"; text "dsts"; text "srcs"; text "dports"; text "sports";
   text "match"; text "udpencap"].
Definition nameOpts : list opt := [flag "help"; must "name"].
Definition listOpts : list opt := [flag "help"; text "name"].
(** cmdTrace.c:43-53, 125-138 *)
Definition traceOpts : list opt := [flag "help"; text "mask"; text "selection"; val "trace_address" "unix:nfqlb-trace"].
Definition traceSetOpts : list opt :=
  [flag "help"; must "name"; text "protocols"; text "dsts"; text "srcs"; text "dports"; text "sports"; text "match"].
(** cmdXlb.c:56-64 *)
Definition xlbOpts : list opt := [flag "help"; val "tshm" "nfqlb"; val "queue" "2"; val "qlength" "1024"].
(** version, flow-list-names, loglevel, primebelow, trace-flow-list-names *)
Definition noOpts : list opt := [flag "help"].
Definition tables : list (list opt) :=
  [lbOpts; flowlbOpts; configOpts; initOpts; deleteOpts; showOpts; statsOpts; fwmarkOpts; flowSetOpts; nameOpts; listOpts; traceOpts;
   traceSetOpts; xlbOpts; noOpts].

(** The command flow-set, cmdFlow.c:12-100: what is sent for a command line.
    None: the program ends before sending (after help, or an error). *)
Definition flowSetLine (words : list chars) : outcome (option chars) :=
  do r <- parseOptions flowSetOpts words;
  match r with
  | Parsed [_; Some name; Some target; prio; protocols; dsts; srcs; dports; sports; match_; udpencap] _ =>
      do s <- cmdFlowSet (mkSO name target prio protocols dsts srcs dports sports match_ udpencap); Ok (Some s)
  | _ => Ok None
  end.

(** ** Queues *)

(** Q, Q+1, ... while below last *)
Fixpoint countUp (n : nat) (q : Z) : list Z := match n with O => [] | S n' => q :: countUp n' (q + 1) end.

(** The queues served, one by each thread; the last one by the main thread *)
Definition queues (qnum : chars) : outcome (list Z) :=
  match split_at 58 qnum with
  | None => Ok [u32 (atoi qnum)]
  | Some _ =>
      match scanu qnum with
      | Some (first, c :: r) =>
          if c =? 58 then
            match scanu r with
            | Some (last, _) => if last <? first then Die else Ok (countUp (Z.to_nat (last - first)) first ++ [last])
            | None => Die
            end
          else Die
      | _ => Die
      end
  end.
