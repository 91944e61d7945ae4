(** Property C67: demultiplexing a written movie. *)
From Verif Require Import Util TimeTab_model Movie_model MuxQueue_model MuxQueue_proofs Demux_model Demux_proofs2 Movie_props.
From Verif Require Walk_model.
Local Open Scope Z_scope.

(** After any history of samples given to any streams (which fit the fields and tables of the
    file, with times of less than 2^62 / 10^7 ticks of their stream), finishing gives a file, and if it is
    shorter than 2^32 bytes, opening it and reading sample after sample gives every sample written,
    of every stream, once, in order, with its bytes, its key frame flag and its times; one shift of
    the clock as in C61.  If no sample is empty, all is read in the order of the file: the bytes
    read are the body, byte for byte. *)
Theorem C67_demux : forall use_comp dist inc n h m now ctts gs most, let none := (mkS 0 0 [] false, 0) in let wrote k := written (nth k (m_streams m) stream0) in
  after use_comp dist inc n h m -> length gs = n -> (0 < n)%nat ->
  (forall k g, nth_error gs k = Some g -> setting_ok g /\ g_ctts g <= most /\ samples_ok g most (map (fun x => (s_comp (fst x), s_dec (fst x), zlen (s_body (fst x)))) (wrote k))
     /\ forall s p, In (s, p) (wrote k) -> g_ts g * (s_comp s + most) <= 2 ^ 62) ->
  zlen (m_file m) < 2 ^ 32 ->
  exists file, movie_file now ctts gs m = Some file /\ (zlen file < 2 ^ 32 ->
    exists mv out j big, demux file = Some (mv, out) /\ length (v_streams mv) = n /\ (forall o, In o out -> (fst (fst o) < n)%nat)
    /\ (j < n)%nat /\ (forall k, (k < n)%nat -> s_comp (fst (hd none (wrote j))) <= s_comp (fst (hd none (wrote k))))
    /\ In big (map g_ctts gs) /\ (forall g, In g gs -> g_ctts g <= big)
    /\ (forall k g x, nth_error gs k = Some g -> nth_error (v_streams mv) k = Some x ->
        reads_as g (big - Z.min (s_dec (fst (hd none (wrote k)))) (s_dec (fst (hd none (wrote j))))) (stream_offset x) (wrote k) (got k out))
    /\ ((forall k s p, In (s, p) (wrote k) -> s_body s <> []) -> read_bytes out = m_file m)).
Proof. exact demux_back. Qed.
Print Assumptions C67_demux.

(** The picture and sound of the example of C61: the hypotheses hold, and this is what is read. *)
Example C67_nonvacuous : after false 300000 100000 2 ex_samples ex_muxed
  /\ (forall k g, nth_error ex_settings k = Some g -> (setting_ok g /\ g_ctts g <= 0 /\ samples_ok g 0 (map (fun x => (s_comp (fst x), s_dec (fst x), zlen (s_body (fst x)))) (written (nth k (m_streams ex_muxed) stream0))))
      /\ forall s p, In (s, p) (written (nth k (m_streams ex_muxed) stream0)) -> g_ts g * (s_comp s + 0) <= 2 ^ 62)
  /\ exists file mv out, movie_file 123 false ex_settings ex_muxed = Some file /\ demux file = Some (mv, out)
     /\ map (fun o => (fst (fst o), Walk_model.s_comp (snd (fst o)), Walk_model.s_dec (snd (fst o)), Walk_model.s_dur (snd (fst o)), Walk_model.s_sync (snd (fst o)), snd o)) out
        = [(0%nat, 400000, 0, 400000, true, [1; 2; 3; 4]); (1%nat, 0, 0, 213125, true, [21; 22]); (0%nat, 1200000, 400000, 400000, false, [6; 7]); (1%nat, 213125, 213125, 213541, true, [23]); (1%nat, 426666, 426666, 213541, true, [24]); (0%nat, 800000, 800000, 400000, false, [8; 9; 10])]
     /\ map stream_offset (v_streams mv) = [0; 0] /\ read_bytes out = m_file ex_muxed.
Proof.
  destruct C61_nonvacuous as (A & B & _). split; [exact A|]. split; [intros k g Hk; split; [exact (B k g Hk)|]|].
  - assert (E : m_streams ex_muxed = [mkSt [] [(mkS 400000 0 [1; 2; 3; 4] true, 0); (mkS 1200000 400000 [6; 7] false, 6); (mkS 800000 800000 [8; 9; 10] false, 10)];
      mkSt [] [(mkS 100000 100000 [21; 22] true, 4); (mkS 313333 313333 [23] true, 8); (mkS 526667 526667 [24] true, 9)]]) by (vm_compute; reflexivity). rewrite E. clear - Hk.
    intros s p Hp. destruct k as [|[|[|k]]]; cbn [nth_error ex_settings] in Hk; try discriminate; injection Hk as <-; cbn [nth written In] in Hp; cbn [g_ts]; decompose [or] Hp; try contradiction; match goal with H : (_, _) = (_, _) |- _ => injection H as <- _; cbn [s_comp]; lia end.
  - eexists _, _, _. split; [vm_compute; reflexivity|]. split; [vm_compute; reflexivity|]. split; [vm_compute; reflexivity|]. split; vm_compute; reflexivity.
Qed.
