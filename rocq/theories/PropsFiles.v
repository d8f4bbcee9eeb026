(** C30-C33, C39-C41, C51, C54, C55: the file-name level and the command line. *)
From Verif Require Import Base PyVal Checksums Headers Pretty Args FileIO Append Files Cli Spec Json Toy MetaProofs Archive HistoryProofs PropsPack PropsAppend
  FilesProofs CliProofs.

(** Files for the Examples. *)
Definition ex_fs : fs := fun p =>
  if String.eqb p "data" then Some ex_data else if String.eqb p "old" then Some ex_new1 else
  if String.eqb p "ex.blp" then Some ex_file else if String.eqb p "new" then Some ex_new1 else
  if String.eqb p "none" then Some [] else if String.eqb p "meta" then Some (b_of_string " {""k"":[1]} ") else None.
Definition ex_bpa : bpargs := mkBPA true "crc32" (MAInt 2).

(** ** C30 *)
Theorem C30_pack_file : forall E, EnvOK E -> forall s i o cs m oba obp oma b s' r,
  s i = Some b -> i <> o -> o <> ""%string ->
  pack_file_to_file E i o cs m oba obp oma s = (s', r) ->
  (forall p, p <> o -> s' p = s p) /\
  match pack_bytes_to_bytes E b cs m oba obp oma with
  | Ok f => (exists a, r = Ok a) /\ s' o = Some f
  | Raise e => r = Raise e
  end.
Proof. exact pack_file_ok. Qed.
Print Assumptions C30_pack_file.
Theorem C30_unpack_file : forall E s i o f s' r,
  s i = Some f -> i <> o -> o <> ""%string ->
  unpack_file_from_file E i o s = (s', r) ->
  (forall p, p <> o -> s' p = s p) /\
  match unpack_bytes_from_bytes E f with
  | Ok (b, m) => r = Ok m /\ s' o = Some b
  | Raise e => r = Raise e
  end.
Proof. exact unpack_file_ok. Qed.
Print Assumptions C30_unpack_file.
Theorem C30_round_trip : forall E, EnvOK E -> forall s i o back cs m oba obp oma b s' a s'' r,
  s i = Some b -> i <> o -> o <> ""%string -> back <> o -> back <> ""%string ->
  pack_file_to_file E i o cs m oba obp oma s = (s', Ok a) ->
  unpack_file_from_file E o back s' = (s'', r) ->
  r = Ok (norm m) /\ s'' back = Some b /\ (forall p, p <> o -> p <> back -> s'' p = s p).
Proof. exact file_round_trip. Qed.
Print Assumptions C30_round_trip.
Theorem C30_bytes_file : forall E, EnvOK E -> forall s o cs m oba obp oma b s' r,
  o <> ""%string ->
  pack_bytes_to_file E b o cs m oba obp oma s = (s', r) ->
  (forall p, p <> o -> s' p = s p) /\
  match pack_bytes_to_bytes E b cs m oba obp oma with
  | Ok f => (exists a, r = Ok a) /\ s' o = Some f /\ unpack_bytes_from_file E o s' = (s', Ok (b, norm m))
  | Raise e => r = Raise e
  end.
Proof. exact bytes_file_ok. Qed.
Print Assumptions C30_bytes_file.
(** A name that does not exist, or an output without a name, is an OSError, and
    nothing is changed. *)
Theorem C30_no_input : forall E s i, s i = None ->
  (forall o cs m oba obp oma, pack_file_to_file E i o cs m oba obp oma s = (s, Raise OSError)) /\
  (forall o, unpack_file_from_file E i o s = (s, Raise OSError)) /\
  unpack_bytes_from_file E i s = (s, Raise OSError) /\
  (forall other oa, append_file E i other oa s = (s, Raise OSError) /\ append_file E other i oa s = (s, Raise OSError)).
Proof. exact no_input. Qed.
Print Assumptions C30_no_input.
Theorem C30_no_output : forall E s b cs m oba obp oma r, calculate_nchunks (size b) cs = Ok r ->
  pack_bytes_to_file E b "" cs m oba obp oma s = (s, Raise OSError) /\
  (forall i, s i = Some b -> pack_file_to_file E i "" cs m oba obp oma s = (s, Raise OSError)).
Proof. exact no_output. Qed.
Print Assumptions C30_no_output.
Theorem C30_no_output_unpack : forall E s i f, s i = Some f -> unpack_file_from_file E i "" s = (s, Raise OSError).
Proof. exact no_output_unpack. Qed.
Print Assumptions C30_no_output_unpack.
Example C30_no_case : ex_fs "nothere"%string = None /\ ex_fs "data"%string = Some ex_data /\ calculate_nchunks (size ex_data) (CSInt 20) = Ok (3, 20, 7).
Proof. vm_compute. auto. Qed.
Example C30_case : let '(s', r) := pack_file_to_file toy_env "data" "out" (CSInt 20) ex_meta None (Some ex_bpa) None ex_fs in
  match r with Ok _ => True | _ => False end /\
  option_map size (s' "out"%string) = Some 704 /\
  (let '(s'', r) := unpack_file_from_file toy_env "out" "old" s' in r = Ok (norm ex_meta) /\ s'' "old"%string = Some ex_data).
Proof. vm_compute. auto. Qed.

(** ** C31: [meddle] is what others do to the files after the size was taken *)
Theorem C31_changed_before_open : forall E, EnvOK E -> forall meddle s i o cs m oba obp oma b0 b1 s' a,
  s i = Some b0 -> meddle s i = Some b1 -> i <> o ->
  pack_file_racing E meddle i o cs m oba obp oma s = (s', Ok a) ->
  (forall p, p <> o -> s' p = meddle s p) /\
  exists f, s' o = Some f /\ unpack_bytes_from_bytes E f = Ok (sub 0 (size b0) b1, norm m).
Proof. exact race_before_open. Qed.
Print Assumptions C31_changed_before_open.
(** ... and while the chunks are being read: whatever the reads return, at most
    as many bytes as asked for, is what comes back. *)
Theorem C31_changed_while_reading : forall E, EnvOK E -> forall in_size reads cs m oba obp oma f n c l,
  0 <= in_size -> calculate_nchunks in_size cs = Ok (n, c, l) ->
  Forall2 (fun x k => size x <= k) reads (repeat c (Z.to_nat (n - 1)) ++ [l]) ->
  pack_stream E in_size reads cs m oba obp oma = Ok f ->
  unpack_bytes_from_bytes E f = Ok (concat reads, norm m).
Proof. exact race_while_reading. Qed.
Print Assumptions C31_changed_while_reading.
Example C31_case_open : let meddle := fun s : fs => fs_set s "data" ex_new1 in
  let '(s', r) := pack_file_racing toy_env meddle "data" "out" (CSInt 20) ex_meta None (Some ex_bpa) None ex_fs in
  match r, s' "out"%string with
  | Ok _, Some f => unpack_bytes_from_bytes toy_env f = Ok (firstn 47 ex_new1, norm ex_meta)
  | _, _ => False
  end /\ size ex_data = 47.
Proof. vm_compute. auto. Qed.
Example C31_case_read : calculate_nchunks 47 (CSInt 20) = Ok (3, 20, 7) /\
  match pack_stream toy_env 47 [sub 0 20 ex_data; sub 3 5 ex_new1; []] (CSInt 20) ex_meta None (Some ex_bpa) None with
  | Ok f => unpack_bytes_from_bytes toy_env f = Ok (sub 0 20 ex_data ++ sub 3 5 ex_new1, norm ex_meta)
  | Raise _ => False
  end.
Proof. vm_compute. auto. Qed.

(** ** C32 *)
Theorem C32_chunk_errors : forall E s i o cs m oba obp oma e,
  match s i with Some b => calculate_nchunks (size b) cs = Raise e | None => e = OSError end ->
  pack_file_to_file E i o cs m oba obp oma s = (s, Raise e).
Proof. exact chunk_errors_harmless. Qed.
Print Assumptions C32_chunk_errors.
(** The other rejected arguments are noticed after the output was truncated. *)
Theorem C32_truncates : forall E s i o cs m oba obp oma b r,
  s i = Some b -> i <> o -> o <> ""%string -> calculate_nchunks (size b) cs = Ok r ->
  ~ In (bp_checksum (the_bpargs obp)) checksum_names \/
  ~ (0 <= ba_typesize (the_bargs oba) <= 255) \/
  (bp_offsets (the_bpargs obp) = true /\ exists v, bp_max_app (the_bpargs obp) = MAInt v /\ v < 0) ->
  exists s' e, pack_file_to_file E i o cs m oba obp oma s = (s', Raise e) /\
    s' o = Some [] /\ (forall p, p <> o -> s' p = s p).
Proof. exact bad_args_truncate. Qed.
Print Assumptions C32_truncates.
Theorem C32_output_kept_refuted : exists E s i o cs m oba obp oma d s' e, EnvOK E /\ i <> o /\
  s o = Some d /\ d <> [] /\
  pack_file_to_file E i o cs m oba obp oma s = (s', Raise e) /\ s' o = Some [].
Proof.
  exists toy_env, ex_fs, "data"%string, "old"%string, (CSInt 20), PNone, None, (Some (mkBPA true "md4" (MAInt 2))), None, ex_new1,
    (fst (pack_file_to_file toy_env "data" "old" (CSInt 20) PNone None (Some (mkBPA true "md4" (MAInt 2))) None ex_fs)), NoSuchChecksum.
  split; [exact toy_env_ok|]. split; [discriminate|]. split; [reflexivity|]. split; [vm_compute; discriminate|].
  split; [|vm_compute; reflexivity].
  rewrite (surjective_pairing (pack_file_to_file _ _ _ _ _ _ _ _ _)) at 1. f_equal. 
Qed.
Print Assumptions C32_output_kept_refuted.
Example C32_case : pack_file_to_file toy_env "data" "old" (CSInt 0) PNone None None None ex_fs = (ex_fs, Raise ValueError).
Proof. apply C32_chunk_errors. vm_compute. reflexivity. Qed.

(** ** C33 *)
Theorem C33_self_pack_loses : forall E, EnvOK E -> forall s p cs m oba obp oma b s' a,
  s p = Some b -> pack_file_to_file E p p cs m oba obp oma s = (s', Ok a) ->
  exists f, s' p = Some f /\ unpack_bytes_from_bytes E f = Ok ([], norm m).
Proof. exact self_pack_loses. Qed.
Print Assumptions C33_self_pack_loses.
Theorem C33_self_unpack_loses : forall E s p f, s p = Some f -> p <> ""%string ->
  exists s', unpack_file_from_file E p p s = (s', Raise ValueError) /\ s' p = Some [].
Proof. exact self_unpack_loses. Qed.
Print Assumptions C33_self_unpack_loses.
Theorem C33_data_kept_refuted : exists E s p cs m oba obp oma b s' a f, EnvOK E /\ s p = Some b /\ b <> [] /\
  pack_file_to_file E p p cs m oba obp oma s = (s', Ok a) /\ s' p = Some f /\
  unpack_bytes_from_bytes E f = Ok ([], PNone).
Proof.
  exists toy_env, ex_fs, "data"%string, (CSInt 20), PNone, None, (Some ex_bpa), None, ex_data.
  set (x := pack_file_to_file toy_env "data" "data" (CSInt 20) PNone None (Some ex_bpa) None ex_fs).
  exists (fst x), None, (match fst x "data"%string with Some f => f | None => [] end).
  split; [exact toy_env_ok|]. split; [reflexivity|]. split; [vm_compute; discriminate|].
  split; [rewrite (surjective_pairing x) at 1; f_equal|]. split; vm_compute; reflexivity.
Qed.
Print Assumptions C33_data_kept_refuted.

(** ** C39 *)
Theorem C39_names_invert : forall co force, co_out co = None \/ co_out co = Some ""%string ->
  decompress_out (mkDO (compress_out co) None force false) = Ok (co_in co).
Proof. exact default_names. Qed.
Print Assumptions C39_names_invert.
Theorem C39_extension : forall s, ends_with_ext s = true <-> exists base, s = (base ++ ".blp")%string.
Proof. exact ext_iff. Qed.
Print Assumptions C39_extension.
Theorem C39_decompress_refuses : forall E o s, do_no_check o = false -> (forall base, do_in o <> (base ++ ".blp")%string) ->
  cli_decompress E o s = (s, Raise (SystemExit 1)).
Proof. exact decompress_refuses. Qed.
Print Assumptions C39_decompress_refuses.
Theorem C39_append_refuses : forall E o s, ao_no_check o = false -> (forall base, ao_orig o <> (base ++ ".blp")%string) ->
  exists c, cli_append E o s = (s, Raise (SystemExit c)).
Proof. exact append_refuses. Qed.
Print Assumptions C39_append_refuses.
Example C39_case : compress_out (mkCO "a.blp" None false 8 7 true "blosclz" None "adler32" true None) = "a.blp.blp"%string /\
  decompress_out (mkDO "a.blp.blp" None false false) = Ok "a.blp"%string /\
  decompress_out (mkDO ".blp" None false false) = Ok ""%string /\
  decompress_out (mkDO "blp" (Some "x"%string) true false) = Raise (SystemExit 1) /\
  decompress_out (mkDO "blp" (Some "x"%string) true true) = Ok "x"%string.
Proof. vm_compute. auto. Qed.

(** ** C40 *)
Theorem C40_compress_never_overwrites : forall E o s p d s' r, co_force o = false -> s p = Some d ->
  cli_compress E o s = (s', r) -> s' p = Some d.
Proof. exact compress_never_overwrites. Qed.
Print Assumptions C40_compress_never_overwrites.
Theorem C40_decompress_never_overwrites : forall E o s p d s' r, do_force o = false -> s p = Some d ->
  cli_decompress E o s = (s', r) -> s' p = Some d.
Proof. exact decompress_never_overwrites. Qed.
Print Assumptions C40_decompress_never_overwrites.
(** With or without --force only the output can change. *)
Theorem C40_compress_only_output : forall E o s p s' r, p <> compress_out o -> cli_compress E o s = (s', r) -> s' p = s p.
Proof. exact compress_only_output. Qed.
Print Assumptions C40_compress_only_output.
Theorem C40_decompress_only_output : forall E o s p s' r, decompress_out o <> Ok p -> cli_decompress E o s = (s', r) -> s' p = s p.
Proof. exact decompress_only_output. Qed.
Print Assumptions C40_decompress_only_output.
Definition ex_co : copts := mkCO "data" None false 8 7 true "blosclz" (Some "0.01K"%string) "crc32" true (Some "meta"%string).
Example C40_case :
  snd (cli_compress toy_env (mkCO "data" (Some "old"%string) false 8 7 true "blosclz" None "crc32" true None) ex_fs) = Raise (SystemExit 1) /\
  fst (cli_compress toy_env (mkCO "data" (Some "old"%string) true 8 7 true "blosclz" None "crc32" true None) ex_fs) "old"%string <> Some ex_new1.
Proof. split; [vm_compute; reflexivity|vm_compute; discriminate]. Qed.

(** ** C41 *)
Theorem C41_round_trip : forall E, EnvOK E -> forall o s s1 b dout force nc out s2 r,
  s (co_in o) = Some b -> co_in o <> compress_out o ->
  cli_compress E o s = (s1, Ok tt) ->
  let od := mkDO (compress_out o) dout force nc in
  decompress_out od = Ok out -> out <> ""%string -> out <> compress_out o ->
  (force = true \/ s1 out = None) ->
  cli_decompress E od s1 = (s2, r) ->
  (exists m, the_metadata E s (co_meta o) = Ok m /\ r = Ok (norm m)) /\ s2 out = Some b /\
  (forall p, p <> compress_out o -> p <> out -> s2 p = s p).
Proof. exact cli_round_trip. Qed.
Print Assumptions C41_round_trip.
Theorem C41_compress_total : forall E, EnvOK E -> forall o s b m z,
  s (co_in o) = Some b -> size b <= 2 ^ 55 ->
  co_in o <> compress_out o -> compress_out o <> ""%string ->
  (co_force o = true \/ s (compress_out o) = None) ->
  blosc_args_ok E (mkBA (co_typesize o) (co_clevel o) (co_shuffle o) (co_cname o)) ->
  In (co_checksum o) checksum_names ->
  (match co_chunk o with None => z = 2 ^ 20 | Some t => chunk_size_option t = Ok z end) -> 1 <= z <= BUFMAX ->
  the_metadata E s (co_meta o) = Ok m ->
  (m <> PNone -> exists raw p, meta_fits E m default_margs raw p (10 * size raw)) ->
  exists s1, cli_compress E o s = (s1, Ok tt).
Proof. exact cli_compress_total. Qed.
Print Assumptions C41_compress_total.
Example C41_case : chunk_size_option "0.01K" = Ok 10 /\ chunk_size_option "max" = Ok BUFMAX /\
  (let '(s1, r) := cli_compress toy_env ex_co ex_fs in r = Ok tt /\
   let '(s2, r) := cli_decompress toy_env (mkDO "data.blp" (Some "back"%string) false false) s1 in
   r = Ok (PDict [(u "k", PList [PInt 1])]) /\ s2 "back"%string = Some ex_data /\ s2 "data"%string = Some ex_data).
Proof. vm_compute. auto 6. Qed.

(** ** C51 by file name: the new contents are there, but the call raises. *)
Theorem C51_append_empty_file_raises : forall E, EnvOK E -> forall s p q oa f b m,
  s p = Some f -> s q = Some [] -> p <> q -> archive E f b m -> sizable f [] ->
  has_offsets f = true -> blosc_args_ok E (effective f oa) ->
  exists s', append_file E p q oa s = (s', Raise ZeroDivisionError) /\
    exists f', s' p = Some f' /\ unpack_bytes_from_bytes E f' = Ok (b, m).
Proof. exact append_empty_file. Qed.
Print Assumptions C51_append_empty_file_raises.
Example C51_case_file : snd (append_file toy_env "ex.blp" "none" no_obargs ex_fs) = Raise ZeroDivisionError /\
  snd (append_file toy_env "ex.blp" "new" no_obargs ex_fs) = Ok tt.
Proof. vm_compute. auto. Qed.
(** Otherwise appending by name is appending to the contents. *)
Theorem C21_append_file : forall E, EnvOK E -> forall s p q oa f b m new s' r,
  s p = Some f -> s q = Some new -> p <> q -> archive E f b m -> sizable f new ->
  append_file E p q oa s = (s', r) ->
  (forall x, x <> p -> s' x = s x) /\
  exists f', s' p = Some f' /\ f' = fst (append_bytes E f new oa) /\
  match snd (append_bytes E f new oa) with
  | Raise e => r = Raise e /\ f' = f
  | Ok _ => r = (if size new =? 0 then Raise ZeroDivisionError else Ok tt) /\
            unpack_bytes_from_bytes E f' = Ok (b ++ new, m)
  end.
Proof. exact append_file_ok. Qed.
Print Assumptions C21_append_file.

(** ** C54 *)
Theorem C54_info_read_only : forall E p s s' r, cli_info E p s = (s', r) -> s' = s.
Proof. intros E p s s' r H. rewrite <- (info_read_only E p s), H. reflexivity. Qed.
Print Assumptions C54_info_read_only.
Theorem C54_info_true : forall E, EnvOK E -> forall s p f b m,
  s p = Some f -> archive E f b m -> u8 (F_body f + 2) f / 32 <= 4 ->
  exists i, cli_info E p s = (s, Ok i) /\
    header_describes (sub 0 32 f) (i_header i) /\
    zlen (i_offsets i) = (if has_offsets f then Z.min 5 (F_n f) else 0) /\
    (forall k, 0 <= k < zlen (i_offsets i) -> nth_error (i_offsets i) (Z.to_nat k) = Some (F_off f k)) /\
    i_meta i = m /\
    (if has_meta f then exists mh, i_mheader i = Some mh /\ mheader_describes (sub 32 32 f) mh else i_mheader i = None) /\
    let P := F_body f in
    i_blosc i = mkBH (u8 P f) (u8 (P + 1) f) (u8 (P + 2) f) (u8 (P + 3) f) (u32 (P + 4) f) (u32 (P + 8) f) (u32 (P + 12) f) /\
    bh_nbytes (i_blosc i) = Z.min (F_chunk f) (size b).
Proof. exact info_true. Qed.
Print Assumptions C54_info_true.
Example C54_case : u8 (F_body ex_file + 2) ex_file / 32 <= 4 /\
  match snd (cli_info toy_env "ex.blp" ex_fs) with
  | Ok i => i_offsets i = [598; 638; 678] /\ bh_nbytes (i_blosc i) = 20 /\ bf_byte_shuffle (i_flags i) = true
  | Raise _ => False
  end.
Proof. vm_compute. intuition congruence. Qed.

(** ** C55 *)
Theorem C55_append : forall E o s f b m x s' r,
  s (ao_orig o) = Some f -> s (ao_new o) = Some x -> archive E f b m -> sizable f x ->
  cli_append E o s = (s', r) ->
  (forall p, p <> ao_orig o -> s' p = s p) /\
  exists f' b' m', s' (ao_orig o) = Some f' /\ archive E f' b' m' /\
    match r with
    | Ok _ => b' = b ++ x /\ exists v, the_metadata E s (ao_meta o) = Ok v /\ m' = (if is_none v then m else norm v)
    | Raise _ => m' = m /\ (b' = b \/ b' = b ++ x)
    end.
Proof. exact cli_append_ok. Qed.
Print Assumptions C55_append.
(** A failing command may have appended: with -m on a file without metadata it
    always has. *)
Theorem C55_half_done : forall E, EnvOK E -> forall o s f b m x v,
  s (ao_orig o) = Some f -> s (ao_new o) = Some x -> x <> [] -> archive E f b m -> sizable f x ->
  0 <= ao_clevel o <= 9 -> e_cname_ok E (ao_cname o) = true ->
  (ao_no_check o = true \/ exists base, ao_orig o = (base ++ ".blp")%string) ->
  the_metadata E s (ao_meta o) = Ok v -> v <> PNone -> has_meta f = false ->
  (exists k, snd (append_bytes E f x (obargs_of (mkBA (ao_typesize o) (ao_clevel o) (ao_shuffle o) (ao_cname o)))) = Ok k) ->
  exists s' f', cli_append E o s = (s', Raise NoMetadataFound) /\ s' (ao_orig o) = Some f' /\
    unpack_bytes_from_bytes E f' = Ok (b ++ x, m).
Proof. exact cli_append_half_done. Qed.
Print Assumptions C55_half_done.
Example C55_case : let '(s', r) := cli_append toy_env (mkAO "ex.blp" "new" false 8 7 true "blosclz" (Some "meta"%string)) ex_fs in
  r = Ok tt /\ match s' "ex.blp"%string with
  | Some f => unpack_bytes_from_bytes toy_env f = Ok (ex_data ++ ex_new1, PDict [(u "k", PList [PInt 1])])
  | None => False end.
Proof. vm_compute. auto. Qed.
Example C55_case_half : let s0 := fst (cli_compress toy_env (mkCO "data" None false 8 7 true "blosclz" (Some "20"%string) "crc32" true None) ex_fs) in
  match s0 "data.blp"%string with Some f => has_meta f = false | None => False end /\
  snd (cli_append toy_env (mkAO "data.blp" "new" false 8 7 true "blosclz" (Some "meta"%string)) s0) = Raise NoMetadataFound.
Proof. vm_compute. auto. Qed.
