(** C85: the memory of flows and flow requests. *)
From Coq Require Import String Permutation.
From Verif Require Import Base Cstr_Model Util_Model Rangeset_Model Flow_Model Flow_Spec Flow3_Proofs Remote_Model Mem_Model Mem_Spec Mem_Proofs Mem3_Proofs Mem2_Proofs.

(** Any definitions, refused or not, replacements, deletions and lookups use only what is
    allocated and free nothing twice.  Then allocated are the set, an array with room for
    the terminating NULL, and for each definition in effect exactly its parts; all of it,
    with the nodes of the port sets, is gone when the set is deleted. *)
Theorem C85_flows : forall L sort ops, libc_ok L -> permutes sort -> Forall safe_call ops ->
  exists m s, (let (s0, m0) := flowSetCreate mem0 in mrun L sort m0 s0 ops) = Ok (m, s) /\
    (exists l, held m l /\ set_tags (map snd l) (effect L [] ops)) /\ clean m /\
    exists m', flowSetDelete m s = Ok m' /\ nothing m'.
Proof. exact flows_memory. Qed.
Print Assumptions C85_flows.

(** The flow server, after any connections, whatever they sent and whichever calls
    failed: besides the flows in effect there are at most 9 blocks of a request, two
    streams, and two descriptors, plus one descriptor for every answer whose descriptor
    was duplicated without getting a stream. *)
Theorem C85_server : forall L sort calls ks, libc_ok L -> permutes sort -> Forall safe_call (flat_map (asked calls) ks) ->
  exists v l r, serves L sort calls server0 ks = Ok v /\ held (v_mem v) (l ++ r) /\ clean (v_mem v) /\
    set_tags (map snd l) (effect L [] (flat_map (asked calls) ks)) /\
    zlen r <= many is_request (map snd r) + many is_stream (map snd r) + many is_conn (map snd r) /\
    many is_request (map snd r) <= 9 /\ many is_stream (map snd r) <= 2 /\
    many loses ks <= many is_conn (map snd r) <= many loses ks + 2.
Proof. exact server_memory. Qed.
Print Assumptions C85_server.

(** So the server stays bounded if no stream fails after dup ... *)
Theorem C85_server_bounded : forall L sort calls ks, libc_ok L -> permutes sort -> Forall safe_call (flat_map (asked calls) ks) ->
  Forall (fun k => n_dup k = true -> n_out k = true) ks ->
  exists v l r, serves L sort calls server0 ks = Ok v /\ held (v_mem v) (l ++ r) /\ clean (v_mem v) /\
    set_tags (map snd l) (effect L [] (flat_map (asked calls) ks)) /\ zlen r <= 13.
Proof. exact server_bounded. Qed.
Print Assumptions C85_server_bounded.

(** ... but not in general: each request for a list whose fdopen fails keeps a descriptor open. *)
Theorem C85_descriptors_refuted : forall L sort calls n, libc_ok L -> permutes sort ->
  (forall c, Forall safe_call (calls c)) ->
  exists ks v l, length ks = n /\ serves L sort calls server0 ks = Ok v /\ held (v_mem v) l /\ Z.of_nat n <= many is_conn (map snd l).
Proof. exact descriptors_leak. Qed.
Print Assumptions C85_descriptors_refuted.

(** ** Examples *)
Definition flowA : fargs := mkArgs (str "a") 10 1 (Some [str "tcp"]) (Some (str "80,443-450")) None (Some [str "10.0.0.0/24"]) None (Some [str "tcp[0:2]=80"; str "tcp[2:2]=81"]) 0.
Definition flowA2 : fargs := mkArgs (str "a") 10 1 None None (Some (str "1-9")) None (Some [str "2001:db8::/32"]) None 0.
Definition flowB : fargs := mkArgs (str "b") 9 2 None None None None None (Some []) 0.
(** Refused after its ports and a CIDR *)
Definition flowBad : fargs := mkArgs (str "bad") 9 2 (Some [str "udp"]) (Some (str "1,2")) (Some (str "3")) (Some [str "10.0.0.0/24"]) (Some [str "10.0.0.0/99"]) None 0.
Definition flowBad2 : fargs := mkArgs (str "bad") 9 2 None (Some (str "1,2,x")) None None None None 0.
Definition ops1 : list mop := [MDefine flowA; MDefine flowBad; MDefine flowB; MLook; MDefine flowBad2; MDefine flowA2; MDelete (str "b"); MDelete (str "c"); MDefine flowB].
Ltac fit := right; vm_compute; reflexivity.
Example C85_ops : libc_ok ex_lib /\ permutes (fun l : list mflow => rev l) /\ Forall safe_call ops1 /\ effect ex_lib [] ops1 = [flowB; flowA2] /\
  tags flowA2 = [TFlow; TName; TPorts; TCidrs].
Proof.
  split; [exact ex_lib_ok|]. split; [intros l; apply Permutation_rev|]. split; [|split; reflexivity].
  repeat constructor; cbn [safe_call safe_op all_or flowA flowA2 flowB flowBad flowBad2 a_dsts a_srcs]; repeat constructor; fit.
Qed.
(** The blocks of these, computed *)
Example C85_computed : match (let (s0, m0) := flowSetCreate mem0 in mrun ex_lib (fun l => rev l) m0 s0 ops1) with
  | Ok (m, s) => flat_map (fun p => match m_live m p with Some t => [t] | None => [] end) (map Z.of_nat (seq 1 60)) =
       [TSet; TFlow; TPorts; TCidrs; TName; TFlow; TMatch; TName; TArr 3] /\ zlen (m_left m) = 4
  | _ => False end.
Proof. vm_compute. split; reflexivity. Qed.

(** A server: a request is set, one is cut off, one is bad, a list *)
Definition calls1 (c : flowcmd) : list mop :=
  match c_name c with
  | Some n => [MDefine (mkArgs n (c_priority c) 1 (c_protocols c) (c_dports c) (c_sports c) (c_dsts c) (c_srcs c) (c_match c) (c_udpencap c))]
  | None => [MLook]
  end.
Definition req : chars := str "action:set" ++ [10] ++ str "name:a" ++ [10] ++ str "protocols:tcp, udp" ++ [10] ++ str "dports:80" ++ [10] ++ str "eoc:" ++ [10].
Definition conns : list conn :=
  [mkConn true true req true true; mkConn true true (firstn 30 req) true true; mkConn false true req true true; mkConn true false req true true;
   mkConn true true (str "name:x" ++ [10] ++ str "nonsense" ++ [10]) true true; mkConn true true (cmdFlowList None) true true].
Example C85_conns : Forall safe_call (flat_map (asked calls1) conns) /\ Forall (fun k => n_dup k = true -> n_out k = true) conns /\
  map a_name (effect ex_lib [] (flat_map (asked calls1) conns)) = [str "a"].
Proof. split; [vm_compute; repeat constructor|]. split; [repeat constructor|]. vm_compute. reflexivity. Qed.
Example C85_conns_computed : match serves ex_lib (fun l => rev l) calls1 server0 conns with
  | Ok v => flat_map (fun p => match m_live (v_mem v) p with Some t => [t] | None => [] end) (map Z.of_nat (seq 1 90)) =
       [TSet; TFlow; TProto; TPorts; TName; TArr 2; TConn; TFile; TText; TConn; TFile]
  | _ => False end.
Proof. vm_compute. reflexivity. Qed.
