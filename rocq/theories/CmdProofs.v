(** Proofs for C92. *)
From Verif Require Import Base PyVal Checksums Headers Pretty Args FileIO Append Files Cli Spec Archive CrcSpec FormatSpec EqSpec ReadSpec ReviseSpec WriteSpec CmdSpec
  BaseLemmas HeaderProofs IOProofs WfProofs PackProofs BytesProofs FilesProofs CliProofs EqProofs ReadProofs ReviseProofs WriteProofs.
From Coq Require Import ZifyBool ZifyNat.
Ltac Zify.zify_post_hook ::= Z.div_mod_to_equations.

Lemma ascii_app a : forall b, list_ascii_of_string (a ++ b) = (list_ascii_of_string a ++ list_ascii_of_string b)%list.
Proof. induction a as [|c a IH]; intros b; [reflexivity|]. cbn [String.append list_ascii_of_string app]. rewrite IH. reflexivity. Qed.
Lemma base_name_of b : base_name (b ++ ".blp") = Some b.
Proof.
  unfold base_name. rewrite ascii_app, rev_app_distr. change (rev (list_ascii_of_string ".blp")) with ["p"; "l"; "b"; "."]%char.
  cbn [app]. rewrite rev_involutive, string_of_list_ascii_of_string. reflexivity.
Qed.
Lemma base_name_inv n b : base_name n = Some b -> n = (b ++ ".blp")%string.
Proof.
  unfold base_name. intros H. destruct (rev (list_ascii_of_string n)) as [|c1 [|c2 [|c3 [|c4 r]]]] eqn:L;
    try discriminate; try (destruct c1 as [[] [] [] [] [] [] [] []]; discriminate).
  - destruct c1 as [[] [] [] [] [] [] [] []]; try discriminate; destruct c2 as [[] [] [] [] [] [] [] []]; discriminate.
  - destruct c1 as [[] [] [] [] [] [] [] []]; try discriminate; destruct c2 as [[] [] [] [] [] [] [] []]; try discriminate; destruct c3 as [[] [] [] [] [] [] [] []]; discriminate.
  - destruct c1 as [[] [] [] [] [] [] [] []]; try discriminate; destruct c2 as [[] [] [] [] [] [] [] []]; try discriminate;
      destruct c3 as [[] [] [] [] [] [] [] []]; try discriminate; destruct c4 as [[] [] [] [] [] [] [] []]; try discriminate.
    injection H as <-. rewrite <- (string_of_list_ascii_of_string n), <- (rev_involutive (list_ascii_of_string n)), L.
    rewrite <- (string_of_list_ascii_of_string (string_of_list_ascii (rev r) ++ _)), ascii_app, list_ascii_of_string_of_list_ascii.
    cbn [rev]. rewrite <- !app_assoc. reflexivity.
Qed.
Lemma base_name_ext n : base_name n = if ends_with_ext n then Some (strip_ext n) else None.
Proof.
  destruct (ends_with_ext n) eqn:X.
  - apply ext_iff in X as [b ->]. rewrite base_name_of, strip_inverts. reflexivity.
  - destruct (base_name n) as [b|] eqn:B; [|reflexivity]. apply base_name_inv in B. assert (ends_with_ext n = true) by (apply ext_iff; eauto). congruence.
Qed.
Lemma trim_strip x : trim x = strip_ws x.
Proof.
  assert (B : forall b, blank_byte b = is_space b) by (intros b; destruct b; reflexivity).
  assert (F : forall y, trim_front y = lstrip_ws y) by (induction y as [|b y IH]; [reflexivity|]; cbn [trim_front lstrip_ws]; rewrite B, IH; reflexivity).
  unfold trim, strip_ws. rewrite !F. reflexivity.
Qed.
Lemma given_default o d : given o d = or_default o d.
Proof. destruct o as [[|a p]|]; reflexivity. Qed.
Lemma value_error_is e : value_error e = is_ValueError e.
Proof. destruct e; reflexivity. Qed.
Lemma place_valid c : match check_valid_checksum c with Ok _ => Ok tt | Raise _ => Raise (SystemExit 2) end = match place c checksum_names with Some _ => Ok tt | None => Raise (SystemExit 2) end.
Proof. pose proof (place_cks c) as P. destruct (check_valid_checksum c); destruct P as (-> & _); reflexivity. Qed.
Lemma set_after s p x y q : fs_set (fs_set s p x) p y q = files_after s (Some (p, y)) q.
Proof. unfold fs_set, files_after. destruct (String.eqb q p); reflexivity. Qed.
Lemma set_after1 s p y q : fs_set s p y q = files_after s (Some (p, y)) q.
Proof. reflexivity. Qed.
Lemma flags_exact z : 0 <= z < 256 -> decode_blosc_flags z = if 5 <=? z / 32 then Raise KeyError else
  Ok (mkBF (Z.odd z) (Z.odd (z / 2)) (Z.odd (z / 4)) (Z.odd (z / 16)) (nth (Z.to_nat (z / 32)) ["blosclz"; "lz4"; "snappy"; "zlib"; "zstd"]%string ""%string)).
Proof.
  intros H. assert (I : In z (map Z.of_nat (seq 0 256))) by (apply in_map_iff; exists (Z.to_nat z); split; [lia|apply in_seq; lia]).
  revert I. revert z H. assert (A : forall z, In z (map Z.of_nat (seq 0 256)) -> decode_blosc_flags z = if 5 <=? z / 32 then Raise KeyError else
    Ok (mkBF (Z.odd z) (Z.odd (z / 2)) (Z.odd (z / 4)) (Z.odd (z / 16)) (nth (Z.to_nat (z / 32)) ["blosclz"; "lz4"; "snappy"; "zlib"; "zstd"]%string ""%string))); [|auto].
  apply map_ext_in_iff. vm_compute. reflexivity.
Qed.

Section WithEnv.
Variable E : Env.

Lemma choices_bad l c : blosc_choices E l c = if bad_choice E l c then Raise (SystemExit 2) else Ok tt.
Proof.
  unfold blosc_choices, bad_choice, MIN_CLEVEL, MAX_CLEVEL. destruct (e_cname_ok E c); [|rewrite andb_false_r, orb_true_r; reflexivity].
  rewrite andb_true_r, orb_false_r. destruct (Z.leb_spec 0 l), (Z.leb_spec l 9), (Z.ltb_spec l 0), (Z.ltb_spec 9 l); try lia; reflexivity.
Qed.
Lemma metadata_read s o : process_metadata_args E o s = (s, metadata_given E s o).
Proof. destruct o as [p|]; [|reflexivity]. unfold process_metadata_args, metadata_given. destruct (s p); [rewrite trim_strip|]; reflexivity. Qed.

Variable dg : Z -> bytes -> bytes.
Hypothesis HD : forall code d, 0 <= code < 9 -> is_digest E code d (dg code d).
Theorem decompress_exact o s : let r := cli_decompress E o s in let w := reference_decompress E dg s o in
  snd r = snd w /\ forall p, fst r p = files_after s (fst w) p.
Proof.
  cut (exists s', cli_decompress E o s = (s', snd (reference_decompress E dg s o)) /\ forall p, s' p = files_after s (fst (reference_decompress E dg s o)) p); [intros (s' & X & H); cbv zeta; rewrite X; auto|].
  unfold cli_decompress, reference_decompress, decompress_out. rewrite base_name_ext.
  set (oo := if do_no_check o then do_out o else _).
  assert (OO : (if do_no_check o then match do_out o with None => Raise (SystemExit 1) | Some p => Ok p end
     else if ends_with_ext (do_in o) then Ok (or_default (do_out o) (strip_ext (do_in o))) else Raise (SystemExit 1)) =
     match oo with None => Raise (SystemExit 1) | Some p => Ok p end).
  { unfold oo. destruct (do_no_check o); [reflexivity|]. destruct (ends_with_ext (do_in o)); [|reflexivity]. cbn [option_map]. rewrite given_default. reflexivity. }
  rewrite OO. destruct oo as [out|]; [|eexists; split; reflexivity]. rewrite (bind_lift _ _ _ _ eq_refl). clear OO.
  unfold check_files, fs_exists. unfold bind at 1. destruct (s (do_in o)) as [f|] eqn:IN; cbn [negb]; [|eexists; split; reflexivity].
  change (match s out with Some _ => true | None => false end) with (there s out).
  destruct (there s out && negb (do_force o)); [eexists; split; reflexivity|].
  unfold unpack_file_from_file, getsize, open_rb, open_wb. unfold bind at 1. rewrite IN. unfold bind at 1. rewrite IN. unfold bind at 1.
  destruct (String.eqb out ""); [eexists; split; reflexivity|]. unfold bind at 1. rewrite (reader_exact E dg HD).
  set (g := if String.eqb (do_in o) out then [] else f).
  repeat match goal with |- context [reference E dg ?h] => lazymatch h with g => fail | _ => change h with g end end.
  assert (Z0 : forall x m, reference E dg g = (x, Ok m) -> zlen f =? 0 = false).
  { intros x m R. destruct (Z.eqb_spec (zlen f) 0) as [Z0|]; [|reflexivity]. apply zlen_0 in Z0. unfold g in R. rewrite Z0 in R. destruct (String.eqb _ _); discriminate R. }
  destruct (reference E dg g) as [x [m|e]]; cbn [fst snd].
  - unfold bind at 1. rewrite fs_set_same, (Z0 x m eq_refl). eexists. split; [reflexivity|]. intros p. apply set_after.
  - destruct e; (eexists; split; [reflexivity|]; intros p; apply set_after).
Qed.

Theorem info_exact p s : let r := cli_info E p s in fst r = s /\
  match reference_info E dg s p with
  | Raise e => snd r = Raise e
  | Ok (f, m, q, q') => exists i, snd r = Ok i /\ info_of f m q q' i
  end.
Proof.
  cbv zeta. unfold cli_info, reference_info. split; [reflexivity|]. cbn [snd]. destruct (s p) as [f|]; [|reflexivity].
  pose proof (beginning_exact E dg HD pyeq pyeq_alike f) as B. pose proof (version_3 E dg HD f) as V.
  set (X := (bg <- read_beginning E ;; r <- read_compressed_chunk E (h_checksum (b_header bg)) ;; ret (bg, snd (fst r))) (fp_of f)).
  assert (RB : forall g e, read_beginning E (fp_of f) = (g, Raise e) ->
    match X with
    | (_, Raise e) => if is_ValueError e then Raise (SystemExit 1) else Raise e
    | (_, Ok (bg, bh)) => fl <~ decode_blosc_flags (bh_flags bh) ;; Ok (mkInfo (b_header bg) (firstn 5 (b_offsets bg)) (b_meta bg) (if is_none (b_meta bg) then None else b_mheader bg) bh fl)
    end = Raise (if value_error e then SystemExit 1 else e)).
  { intros g e H. rewrite value_error_is. unfold X, bind at 1. rewrite H. destruct (is_ValueError e); reflexivity. }
  destruct (header_fault f) as [e|]; [destruct B as (g & B); exact (RB g e B)|].
  destruct B as (ck & CI & NO & B). specialize (V eq_refl).
  assert (MP : forall m q, metadata_part E dg f = Ok (m, q) -> m <> PNone -> has_meta f = true).
  { intros m q. unfold metadata_part. destruct (has_meta f); [reflexivity|]. congruence. }
  destruct (metadata_part E dg f) as [[m q]|e]; [|destruct B as (g & B); exact (RB g e B)]. specialize (MP m q eq_refl).
  destruct B as (Q & B). destruct (table_end f q) as [q'|e]; [|destruct B as (g & B); exact (RB g e B)].
  destruct B as (mh & B & OP & N & Q' & MH). clear RB. cbv zeta in B. set (bg := mkBeg _ m mh _) in B.
  assert (HX : X = (r <- read_compressed_chunk E ck ;; ret (bg, snd (fst r))) (mkfp f q' [])) by (unfold X, bind at 1; rewrite B; reflexivity).
  assert (ZR : zlen (ztake 16 (zdrop q' f)) = Z.min 16 (Z.max 0 (size f - q'))) by (rewrite zlen_ztake, zlen_zdrop, <- size_zlen; lia).
  assert (SH : size f - q' < 16 -> read_compressed_chunk E ck (mkfp f q' []) = (adv (zlen (ztake 16 (zdrop q' f))) (mkfp f q' []), Raise (if size f - q' <? 4 then IndexError else StructError))).
  { intros L. unfold read_compressed_chunk, BLOSC_HEADER_LENGTH. rewrite (bind_run _ _ _ _ _ (f_read_gen 16 _ ltac:(lia))). apply bind_lift_raise.
    change (rest (mkfp f q' [])) with (zdrop q' f). rewrite (blosc_short E dg HD) by lia. rewrite ZR. destruct (Z.ltb_spec (size f - q') 4), (Z.ltb_spec (Z.min 16 (Z.max 0 (size f - q'))) 4); try lia; reflexivity. }
  destruct (Z.ltb_spec (size f - q') 4) as [L4|L4]; [rewrite HX, (bind_run_raise _ _ _ _ _ (SH ltac:(lia))); reflexivity|].
  destruct (Z.ltb_spec (size f - q') 16) as [L16|L16]; [rewrite HX, (bind_run_raise _ _ _ _ _ (SH ltac:(lia))); reflexivity|]. clear SH.
  destruct (read_chunk_spec E ck (mkfp f q' [])) as (bh & n & RC & _); [exact Q'|change (rest (mkfp f q' [])) with (zdrop q' f); rewrite zlen_zdrop, <- size_zlen; lia|].
  pose proof (read_chunk_bh E ck (mkfp f q' []) _ _ _ _ Q' RC) as DB. change (rest (mkfp f q' [])) with (zdrop q' f) in DB.
  rewrite decode_blosc_header_ok in DB by lia. injection DB as DB.
  assert (SH : forall p k, 0 <= p -> 0 <= k -> p + k <= 16 -> sub p k (ztake 16 (zdrop q' f)) = sub (q' + p) k f).
  { intros p' k Hp Hk Hpk. rewrite <- sub_shift by lia.
    rewrite <- (ztake_zdrop 16 (zdrop q' f)) at 2. rewrite sub_app_l; [reflexivity|lia|lia|]. rewrite ZR. lia. }
  unfold u8, u32 in DB. rewrite !SH in DB by lia. rewrite Z.add_0_r in DB.
  rewrite (bind_run _ _ _ _ _ RC) in HX. cbn [fst snd ret] in HX. rewrite HX. unfold ret.
  assert (BF : bh_flags bh = u8 (q' + 2) f) by (rewrite <- DB; reflexivity).
  rewrite BF, flags_exact by apply u8_range. destruct (5 <=? u8 (q' + 2) f / 32); [reflexivity|]. cbn [rbind]. eexists. split; [reflexivity|].
  unfold bg, info_of. cbn [i_header i_offsets i_meta i_mheader i_blosc i_flags b_header b_offsets b_meta b_mheader h_version h_offsets h_metadata h_checksum h_typesize h_chunk_size h_last_chunk h_nchunks h_max_app].
  do 9 (split; [auto|]). split.
  { destruct (has_offsets f); [|reflexivity]. unfold offs_at. rewrite firstn_map. f_equal. destruct (N eq_refl) as (N0 & _).
    destruct (Z.le_gt_cases (F_n f) 5) as [L|L].
    - rewrite Z.min_r by lia. apply firstn_all2. rewrite seq_length. lia.
    - rewrite Z.min_l by lia. replace (Z.to_nat (F_n f)) with (5 + (Z.to_nat (F_n f) - 5))%nat by lia. rewrite seq_app, firstn_app, seq_length. change (Z.to_nat 5) with 5%nat.
      rewrite Nat.sub_diag, firstn_O, app_nil_r. reflexivity. }
  split; [reflexivity|]. split; [|split; [symmetry; exact DB|reflexivity]].
  unfold mhead in MH. destruct m; cbn [is_none]; try reflexivity; rewrite MP in MH by discriminate; exact MH.
Qed.
Variable eqv : pyval -> pyval -> bool.
Hypothesis HQ : forall a b, eqv a b = true <-> alike a b.
Theorem append_cmd_exact o s : let r := cli_append E o s in let w := reference_append_cmd E dg eqv s o in
  snd r = snd w /\ forall p, fst r p = files_after s (fst w) p.
Proof.
  cut (exists s', cli_append E o s = (s', snd (reference_append_cmd E dg eqv s o)) /\ forall p, s' p = files_after s (fst (reference_append_cmd E dg eqv s o)) p); [intros (s' & X & H); cbv zeta; rewrite X; auto|].
  unfold cli_append, reference_append_cmd. rewrite choices_bad.
  destruct (bad_choice E (ao_clevel o) (ao_cname o)); [eexists; split; reflexivity|]. rewrite (bind_lift _ _ _ _ eq_refl). rewrite base_name_ext.
  replace (match (if ends_with_ext (ao_orig o) then Some (strip_ext (ao_orig o)) else None) with None => true | Some _ => false end) with (negb (ends_with_ext (ao_orig o)))
    by (destruct (ends_with_ext (ao_orig o)); reflexivity).
  destruct (negb (ao_no_check o) && negb (ends_with_ext (ao_orig o))); [eexists; split; reflexivity|]. rewrite (bind_lift _ _ _ _ eq_refl).
  unfold bind at 1. unfold fs_exists. destruct (s (ao_orig o)) as [f|] eqn:HF; cbn [negb]; [|eexists; split; reflexivity].
  destruct (s (ao_new o)) as [x|] eqn:HX; cbn [negb]; [|eexists; split; reflexivity].
  unfold bind at 1. rewrite metadata_read. destruct (metadata_given E s (ao_meta o)) as [m|e]; [|eexists; split; reflexivity].
  change (obargs_of (mkBA (ao_typesize o) (ao_clevel o) (ao_shuffle o) (ao_cname o))) with (mkOBA (Some (ao_typesize o)) (Some (ao_clevel o)) (Some (ao_shuffle o)) (Some (ao_cname o))).
  set (a := mkOBA _ _ _ _).
  assert (AF : append_file E (ao_orig o) (ao_new o) a s =
    let r := reference_append E dg f x a in (fs_set s (ao_orig o) (fst r), match snd r with Raise e => Raise e | Ok _ => if size x =? 0 then Raise ZeroDivisionError else Ok tt end)).
  { unfold append_file, getsize, open_rb. unfold bind at 1. rewrite HF. unfold bind at 1. rewrite HX. unfold bind at 1. rewrite HF. unfold bind at 1. rewrite HX.
    rewrite <- (append_exact E dg HD eqv HQ f x a). unfold append_bytes. change (zlen x) with (size x). cbv zeta. unfold bind at 1. cbn [fst snd].
    destruct (snd (append_fp E (size x) a (fp_of x, fp_of f))) as [k|e]; [|reflexivity]. unfold bind at 1. rewrite fs_set_same. destruct (size x =? 0); reflexivity. }
  unfold bind at 1. rewrite AF. cbv zeta. destruct (reference_append E dg f x a) as [g [k|e]]; cbn [fst snd].
  2:{ eexists. split; [reflexivity|]. intros p. apply set_after1. }
  destruct (size x =? 0); [eexists; split; [reflexivity|]; intros p; apply set_after1|].
  destruct (is_none m) eqn:MN.
  { destruct m; try discriminate. eexists. split; [reflexivity|]. intros p. apply set_after1. }
  unfold bind at 1, open_rb. rewrite fs_set_same. pose proof (rewrite_exact E dg HD eqv HQ g m default_overrides) as RW. unfold rewrite_bytes in RW.
  change (mkOv None None (Some "zlib"%string) (Some 6)) with default_overrides.
  destruct m; try discriminate; rewrite <- RW; cbn [fst snd]; (eexists; split; [reflexivity|]; intros p; apply set_after).
Qed.


Hypothesis EK : EnvOK E.

Lemma pack_file_exact i o cs m oba obp oma s b : s i = Some b -> o <> ""%string ->
  pack_file_to_file E i o cs m oba obp oma s =
  match chunking (size b) cs with
  | Raise e => (s, Raise e)
  | Ok (n, c, l) => let r := reference_write E dg n c l (Ok (pieces n c l (if String.eqb i o then [] else b))) m oba obp oma in (fs_set (fs_set s o []) o (fst r), snd r)
  end.
Proof.
  intros Hb Ho. pose proof (chunking_exact (size b) cs ltac:(unfold size; lia)) as CE.
  destruct (chunking (size b) cs) as [[[n c] l]|e] eqn:CH.
  - pose proof (chunking_ok (size b) cs n c l ltac:(unfold size; lia) CH) as (HN & HL & HC & HB & C0).
    unfold pack_file_to_file. rewrite (pack_file_eq E (fun s : fs => s) i o cs m oba obp oma s b b n c l) by auto. cbv zeta.
    set (seen := if String.eqb i o then [] else b). match goal with |- context [reference_write E dg n c l (Ok (pieces n c l ?g)) m oba obp oma] => change g with seen end. rewrite <- (write_exact E dg HD EK seen n c l m oba obp oma HN HL HC). cbv zeta. cbn [fst snd].
    destruct (pack_of E seen n c l m oba obp oma) as [[st k] [a|e]] eqn:Ep; cbn [fst snd]; [|reflexivity].
    apply (packed_inv E EK) in Ep as (h & os & ck & P & D & L); try lia; auto.
    pose proof (zlen_file_of E h os ck (proj1 (packed_header E _ _ _ _ _ _ _ _ _ _ _ P))) as ZL.
    rewrite <- D in ZL. replace (zlen _ =? 0) with false by lia. reflexivity.
  - unfold pack_file_to_file, pack_file_racing, getsize. unfold bind at 1. rewrite Hb. apply bind_lift_raise. exact CE.
Qed.

Theorem compress_exact o s : let r := cli_compress E o s in let w := reference_compress E dg s o in
  snd r = snd w /\ forall p, fst r p = files_after s (fst w) p.
Proof.
  cut (exists s', cli_compress E o s = (s', snd (reference_compress E dg s o)) /\ forall p, s' p = files_after s (fst (reference_compress E dg s o)) p); [intros (s' & X & H); cbv zeta; rewrite X; auto|].
  unfold cli_compress, reference_compress. rewrite choices_bad.
  destruct (bad_choice E (co_clevel o) (co_cname o)); [eexists; split; reflexivity|]. rewrite (bind_lift _ _ _ _ eq_refl).
  set (out := given (co_out o) (co_in o ++ ".blp")). assert (OUT : compress_out o = out) by (unfold compress_out, out, EXTENSION; rewrite given_default; reflexivity).
  assert (ON : out <> ""%string).
  { unfold out, given. destruct (co_out o) as [[|]|]; try discriminate; destruct (co_in o); discriminate. }
  set (cs := match co_chunk o with None => Ok (CSStr "1M") | Some t => z <~ chunk_size_option t ;; Ok (CSInt z) end).
  assert (CS : match (match co_chunk o with None => Ok (2 ^ 20) | Some t => chunk_size_option t end) with
     | Ok z => exists a, cs = Ok a /\ forall n, chunking n a = chunking n (CSInt z) | Raise e => cs = Raise e end).
  { unfold cs. destruct (co_chunk o) as [t|].
    - destruct (chunk_size_option t); cbn [rbind]; eauto.
    - exists (CSStr "1M"). split; [reflexivity|]. intros n. reflexivity. }
  destruct (match co_chunk o with None => Ok (2 ^ 20) | Some t => chunk_size_option t end) as [z|e]; [|rewrite CS; eexists; split; reflexivity].
  destruct CS as (a & CS & CH). rewrite (bind_lift _ _ _ _ CS). clear cs CS. rewrite place_valid.
  destruct (place (co_checksum o) checksum_names) as [ck|]; [|eexists; split; reflexivity]. rewrite (bind_lift _ _ _ _ eq_refl).
  rewrite OUT. unfold check_files, fs_exists. unfold bind at 1. fold (there s out).
  destruct (s (co_in o)) as [b|] eqn:IN; cbn [negb]; [|eexists; split; reflexivity].
  change (match s out with Some _ => true | None => false end) with (there s out).
  destruct (there s out && negb (co_force o)); [eexists; split; reflexivity|].
  unfold bind at 1. rewrite metadata_read. destruct (metadata_given E s (co_meta o)) as [m|e]; [|eexists; split; reflexivity].
  rewrite (pack_file_exact _ _ _ _ _ _ _ _ b IN ON), CH.
  destruct (chunking (size b) (CSInt z)) as [[[n c] l]|e].
  - cbv zeta. change (mk_bpargs (co_offsets o) (Some (co_checksum o)) (bp_max_app default_bpargs)) with (mkBPA (co_offsets o) (co_checksum o) (MACall (fun k => Ok (Some (10 * k))))).
    change default_margs with (mkMA (b_of_string "JSON") "adler32" "zlib" 6 (MMCall (fun k => Ok (10 * k)))).
    destruct (reference_write E dg n c l _ m _ _ _) as [f [x|e]]; cbn [fst snd].
    + eexists. split; [reflexivity|]. intros p. apply set_after.
    + destruct e; (eexists; split; [reflexivity|]; intros p; apply set_after).
  - destruct e; eexists; split; reflexivity.
Qed.

End WithEnv.
