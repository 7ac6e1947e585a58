(** C71, C72: the shared memory of a table, byte by byte, and the show command. *)
From Coq Require Import String Permutation.
From Verif Require Import Base Lists Cstr_Model Rangeset_Model Rangeset_Spec Prime_Model Maglev_Model Config_Model Config_Spec Maglev_Spec
  Config_Proofs MaglevThms_Proofs Maglev_Props Shm_Model Shm_Spec Shm_Proofs Shm2_Proofs Shm3_Proofs Shm4_Proofs Shm5_Proofs.

(** C71 - init.  Full claim: whatever malloc returned and however the kernel splits
    the writes, when init ends well the file holds the own fwmark and the table that
    init should make; it ends well when all bytes could be written, and not only if a
    write failed.  Proved when the file is smaller than 2^31 bytes (see below). *)
Theorem C71_init_partial : forall own m n garbage rand s,
  init_args m n rand -> cmdInit m n rand = Ok s -> int32 own -> file_size s <= 4 + zlen garbage -> file_size s < 2 ^ 31 ->
  exists f, holds f own s /\ sized own s /\ forall rs,
    match winitCmd own m n garbage rs rand with
    | Ok (g, true) => g = f
    | Ok (g, false) => In Failed rs
    | Fuel => ~ writes rs (file_size s)
    | _ => False
    end /\ (writes rs (file_size s) -> winitCmd own m n garbage rs rand = Ok (f, true)).
Proof. exact init_file. Qed.
Print Assumptions C71_init_partial.

Example C71_init_ex : exists s f, cmdInit 7 3 ex_rand = Ok s /\ file_size s = 152 /\
  winitCmd (-2) 7 3 (repeat 77 148) [Again; Wrote 100; Wrote 0; Wrote 52] ex_rand = Ok (f, true) /\ writes [Again; Wrote 100; Wrote 0; Wrote 52] 152 /\
  firstn 24 f = [254; 255; 255; 255; 7; 0; 0; 0; 3; 0; 0; 0; 148; 0; 0; 0; 255; 255; 255; 255; 255; 255; 255; 255].
Proof. eexists. eexists. split; [vm_compute; reflexivity|]. split; [reflexivity|]. split; [vm_compute; reflexivity|]. split; [cbn; lia|vm_compute; reflexivity]. Qed.

(** A file of 2^31 bytes or more is written completely, but init says that it failed,
    and leaves it as malloc gave it. *)
Theorem C71_too_large : forall own m n garbage rand s rs,
  init_args m n rand -> cmdInit m n rand = Ok s -> file_size s <= 4 + zlen garbage -> 2 ^ 31 <= file_size s < 2 ^ 32 ->
  (forall f, winitCmd own m n garbage rs rand <> Ok (f, true)) /\
  (writes rs (file_size s) -> exists f, winitCmd own m n garbage rs rand = Ok (f, false) /\ zlen f = file_size s).
Proof. exact init_too_large. Qed.
Print Assumptions C71_too_large.

(** For example init --M=100000 --N=6000. *)
Theorem C71_large_table_refuted : exists m n rand s rs garbage f,
  init_args m n rand /\ cmdInit m n rand = Ok s /\ file_size s <= 4 + zlen garbage /\ writes rs (file_size s) /\
  m = 100000 /\ n = 6000 /\ ~ In Failed rs /\ winitCmd 0 m n garbage rs rand = Ok (f, false).
Proof.
  assert (IA : init_args 100000 6000 (fun _ => 0)) by (split; [lia|split; intros; lia]).
  assert (P : primeBelow (Z.max 100000 3) = Ok 99991) by (vm_compute; reflexivity).
  destruct (layout_accept 100000 6000 (fun _ => 0) 99991 IA P ltac:(lia) ltac:(lia)) as (s & H & EM & EN).
  assert (FS : file_size s = 2400207992) by (unfold file_size; rewrite EM, EN; lia).
  assert (GL : file_size s <= 4 + zlen (repeat 0 (Z.to_nat (file_size s)))) by (rewrite zlen_repeat; lia).
  assert (WR : writes [Wrote (file_size s)] (file_size s)). { right. split; [lia|]. left. lia. }
  destruct (init_too_large 0 100000 6000 (repeat 0 (Z.to_nat (file_size s))) (fun _ => 0) s [Wrote (file_size s)] IA H GL ltac:(lia)) as (_ & T).
  destruct (T WR) as (f & E & _). exists 100000, 6000, (fun _ => 0), s, [Wrote (file_size s)], (repeat 0 (Z.to_nat (file_size s))), f.
  repeat (split; [assumption || reflexivity|]). split; [|exact E]. cbn. intros [Q|[]]. discriminate.
Qed.
Print Assumptions C71_large_table_refuted.

(** C71 - commands.  On a file that holds a table every command does what it does to
    the table, and each store takes the file to the next state of the table. *)
Theorem C71_commands : forall f own s c s' tr,
  holds f own s -> sized own s -> cmd_ints c -> run_cmd s c = Ok (s', tr) ->
  exists f' wtr, wrun f c = Ok (f', wtr) /\ holds f' own s' /\ sized own s' /\
    Forall2 (fun o m => exists g, o = Ok g /\ holds g own m /\ sized own m) (wstates f wtr) (states s tr).
Proof. exact holds_run. Qed.
Print Assumptions C71_commands.

(** C71 - from the command line to the packets: after init and any commands the file
    holds the table reached, and a packet handler that maps the file gets from the bytes
    what the table says.  For M <= 65536, as C06. *)
Theorem C71_history_partial : forall own m n garbage rs rand s0 f0 cs,
  init_args m n rand -> cmdInit m n rand = Ok s0 -> mM s0 <= 65536 -> int32 own ->
  file_size s0 <= 4 + zlen garbage -> file_size s0 < 2 ^ 31 -> winitCmd own m n garbage rs rand = Ok (f0, true) -> Forall cmd_ints cs ->
  exists f s vw, wrun_hist f0 cs = Ok f /\ reached m n rand cs s /\ holds f own s /\ map_view f = Ok vw /\
    (forall hash x, mag_lookup s hash = Ok x -> wread2 vw f f hash = Ok x) /\
    forall name, cmdShow name f = Ok (show_text name own (mM s) (mN s) (firstn 25 (mlookup s)) (actives (mactive s) 0)).
Proof. exact file_lookup. Qed.
Print Assumptions C71_history_partial.

(** C71 - and while commands run, or were killed: a reader that mapped the file at any
    time never leaves it, and gets no target or a fwmark that is active. *)
Theorem C71_readers_partial : forall own m n garbage rs rand s0 f0 f1 f2 hash,
  init_args m n rand -> cmdInit m n rand = Ok s0 -> mM s0 <= 65536 -> int32 own ->
  file_size s0 <= 4 + zlen garbage -> file_size s0 < 2 ^ 31 -> winitCmd own m n garbage rs rand = Ok (f0, true) ->
  fcreach f0 f1 -> fcreach f1 f2 -> 0 <= hash ->
  exists s2 vw x, holds f2 own s2 /\ map_view f0 = Ok vw /\ map_view f1 = Ok vw /\ wread2 vw f1 f2 hash = Ok x /\ (x < 0 \/ In x (mactive s2)).
Proof. exact readers_file. Qed.
Print Assumptions C71_readers_partial.

Definition ex_file : outcome (list Z) :=
  do p <- winitCmd 5 7 3 (repeat 77 148) [Wrote 152] ex_rand; wrun_hist (fst p) [Activate [10; 11; 12]; Deactivate [11]].
Example C71_readers_ex : exists f0 f1 tr f2 g1 vw,
  winitCmd 5 7 3 (repeat 77 148) [Wrote 152] ex_rand = Ok (f0, true) /\ wrun f0 (Activate [10; 11; 12]) = Ok (f1, tr) /\
  cmd_ints (Activate [10; 11; 12]) /\ cmd_ints (Deactivate [11]) /\
  In (Ok g1) (wstates f0 tr) /\ g1 <> f0 /\ g1 <> f1 /\ wrun f1 (Deactivate [11]) = Ok (f2, snd (match wrun f1 (Deactivate [11]) with Ok p => p | _ => ([], []) end)) /\
  map_view f0 = Ok vw /\ wread2 vw f1 f1 1 = Ok 11 /\ wread2 vw f1 f2 1 = Ok (-1) /\ wread2 vw f2 f2 1 = Ok 12.
Proof.
  eexists. eexists. eexists. eexists. eexists. eexists. split; [vm_compute; reflexivity|]. split; [vm_compute; reflexivity|].
  split; [cbn; unfold int32; repeat constructor; lia|]. split; [cbn; unfold int32; repeat constructor; lia|].
  split; [cbn [wstates In]; right; left; vm_compute; reflexivity|]. split; [discriminate|]. split; [discriminate|].
  split; [vm_compute; reflexivity|]. split; [vm_compute; reflexivity|]. vm_compute. repeat split; reflexivity.
Qed.

(** Not if init is run again while a packet handler has the table mapped: the handler
    keeps the sizes of the old table.  With a smaller table it reads far behind the end
    of the file; with a larger one it takes an entry of a preference list for a fwmark. *)
Theorem C71_init_in_use_refuted :
  (exists s0 f0 vw f1, cmdInit 2003 1 ex_rand = Ok s0 /\ holds f0 0 s0 /\ map_view f0 = Ok vw /\
     winitCmd 0 3 1 (repeat 77 52) [Wrote 56] ex_rand = Ok (f1, true) /\ zlen f1 < 4096 /\
     lk vw (2000 mod v_M vw) >= 4096 /\ wread2 vw f1 f1 2000 = UB) /\
  (exists f0 vw f1 f2 tr s2, winitCmd 0 7 3 (repeat 77 148) [Wrote 152] ex_rand = Ok (f0, true) /\ map_view f0 = Ok vw /\
     winitCmd 0 11 3 (repeat 77 212) [Wrote 216] ex_rand = Ok (f1, true) /\ wrun f1 (Activate [100]) = Ok (f2, tr) /\
     holds f2 0 s2 /\ mactive s2 = [100; -1; -1] /\ wread2 vw f2 f2 0 = Ok 9).
Proof.
  split.
  - assert (IA : init_args 2003 1 ex_rand).
    { split; [lia|]. split; [lia|]. apply ex_args. }
    assert (P : primeBelow (Z.max 2003 3) = Ok 2003) by (vm_compute; reflexivity).
    destruct (layout_accept 2003 1 ex_rand 2003 IA P ltac:(lia) ltac:(lia)) as (s & H & EM & EN).
    assert (FS : file_size s = 16056) by (unfold file_size; rewrite EM, EN; reflexivity).
    destruct (init_file 0 2003 1 (repeat 0 (Z.to_nat 16056)) ex_rand s IA H) as (f & HF & SZ & _).
    { unfold int32. lia. } { rewrite zlen_repeat. lia. } { lia. }
    exists s, f, (view_of 2003 1). eexists. split; [exact H|]. split; [exact HF|].
    split; [rewrite (holds_view f 0 s HF SZ), EM, EN; reflexivity|]. split; [vm_compute; reflexivity|]. vm_compute. repeat split; try reflexivity. discriminate.
  - eexists. eexists. eexists. eexists. eexists.
    exists (mkMag 11 3 (repeat 0 11) (make_rows 11 3 ex_rand) [100; -1; -1]).
    split; [vm_compute; reflexivity|]. split; [vm_compute; reflexivity|]. split; [vm_compute; reflexivity|]. split; [vm_compute; reflexivity|].
    split; [exists 212, [0; 0; 0]; vm_compute; repeat split; auto 20|]. split; [reflexivity|]. vm_compute. reflexivity.
Qed.
Print Assumptions C71_init_in_use_refuted.

(** And not if init failed: what it could write stays, in place of the table before;
    M and N are then what malloc returned, and a packet handler started next reads far
    outside of the file. *)
Theorem C71_failed_init_refuted : exists garbage rs f vw,
  winitCmd 0 7 3 garbage rs ex_rand = Ok (f, false) /\ map_view f = Ok vw /\ zlen f < 4096 /\
  lk vw (1000000 mod v_M vw) >= 4096 /\ wread2 vw f f 1000000 = UB.
Proof.
  exists (0 :: 0 :: 0 :: 64 :: repeat 0 144), [Wrote 100; Failed]. eexists. eexists. split; [vm_compute; reflexivity|]. split; [vm_compute; reflexivity|].
  vm_compute. repeat split; try reflexivity. discriminate.
Qed.
Print Assumptions C71_failed_init_refuted.

(** C72 - show prints the own fwmark, the sizes, the first slots, and the active
    targets with their indices. *)
Theorem C72_show : forall f own s name, holds f own s -> sized own s -> mM s < 2 ^ 31 -> mN s < 2 ^ 31 ->
  cmdShow name f = Ok (show_text name own (mM s) (mN s) (firstn 25 (mlookup s)) (actives (mactive s) 0)) /\
  (forall fw i, In (fw, i) (actives (mactive s) 0) <-> 0 <= fw /\ znth (mactive s) i = Some fw).
Proof.
  intros f own s name HF SZ MB NB. split; [apply (shows f own s HF SZ); auto|]. intros fw i. rewrite actives_in. rewrite Z.sub_0_r.
  split; [tauto|]. intros (A & B). pose proof (znth_some_range _ _ _ _ B). split; auto. split; [lia|auto].
Qed.
Print Assumptions C72_show.

(** The text says it without ambiguity: files with the same text agree on all of it. *)
Theorem C72_show_determines : forall name own own' M M' N N' l l' a a',
  int32 own -> int32 own' -> is_u32 M -> is_u32 M' -> is_u32 N -> is_u32 N' -> Forall int32 l -> Forall int32 l' ->
  Forall pair_ok a -> Forall pair_ok a' -> show_text name own M N l a = show_text name own' M' N' l' a' ->
  own = own' /\ M = M' /\ N = N' /\ l = l' /\ a = a'.
Proof. exact show_inj. Qed.
Print Assumptions C72_show_determines.

(** From the command line: after init, activate and deactivate, show lists the set of
    fwmarks that should be active, each once, each with its own index below N.  For
    M <= 65536. *)
Theorem C72_show_set_partial : forall own m n garbage rs rand s0 f0 cs,
  init_args m n rand -> cmdInit m n rand = Ok s0 -> mM s0 <= 65536 -> int32 own ->
  file_size s0 <= 4 + zlen garbage -> file_size s0 < 2 ^ 31 -> winitCmd own m n garbage rs rand = Ok (f0, true) ->
  Forall (fun c => match c with SAct fws | SDeact fws => Forall int32 fws end) cs ->
  exists f lookup pairs, wrun_hist f0 (map to_cmd cs) = Ok f /\
    (forall name, cmdShow name f = Ok (show_text name own (mM s0) n lookup pairs)) /\
    Permutation (map fst pairs) (s_hist n cs) /\ NoDup (map snd pairs) /\ (forall p, In p pairs -> 0 <= snd p < n) /\ NoDup (map fst pairs).
Proof. exact show_set. Qed.
Print Assumptions C72_show_set_partial.

Example C72_ex : (do f <- ex_file; cmdShow (str "nfqlb") f) =
  Ok (str "Shm: nfqlb" ++ [10] ++ str "  Fw: own=5" ++ [10] ++ str "  Maglev: M=7, N=3" ++ [10] ++
      str "   Lookup: 0 2 0 2 0 2 0..." ++ [10] ++ str "   Active: 10(0) 12(2)" ++ [10]).
Proof. vm_compute. reflexivity. Qed.
