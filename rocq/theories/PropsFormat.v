(** C86: every byte of a packed file; the defaults. *)
From Verif Require Import Base PyVal Checksums Headers Pretty Args FileIO Spec CrcSpec Append Archive FormatSpec FormatProofs Toy PropsPack PropsAppend.

(** Whatever the arguments: a file that pack_bytes_to_bytes returns is the one the
    format prescribes for them. *)
Theorem C86_file : forall E, EnvOK E -> forall b cs m oba obp oma f,
  pack_bytes_to_bytes E b cs m oba obp oma = Ok f ->
  exists z ck r sect chunks, let c := Z.min z (size b) in let n := zlen chunks in
    ((size b = 0 /\ z = 0) \/ asked cs z) /\ code_of ck (bp_checksum (the_bpargs obp)) /\
    chunks_for E (the_bargs oba) ck c b chunks /\
    (if bp_offsets (the_bpargs obp) then exists v, reserve_of (bp_max_app (the_bpargs obp)) n v /\ r = Z.min v (2 ^ 63 - 1 - n) else r = 0) /\
    (if is_none m then sect = []
     else let a := the_margs oma in section_of E m (ma_checksum a) (ma_codec a) (ma_level a) (max_meta a) sect) /\
    f = format (bp_offsets (the_bpargs obp)) (negb (is_none m)) ck (ba_typesize (the_bargs oba)) c (size (last (chunks_of c b) [])) n r sect chunks.
Proof. exact pack_format. Qed.
Print Assumptions C86_file.

(** With nothing but data and metadata given (defaults.py): chunks of 1 MiB,
    compressed by blosclz with typesize 8, level 7 and shuffle; offsets, adler32,
    room for ten times as many chunks; the metadata JSON, adler32, zlib at level 6,
    room for ten times its size. *)
Theorem C86_defaults : forall E, EnvOK E -> forall b m f,
  pack_bytes_to_bytes E b (CSStr "1M") m None None None = Ok f ->
  exists sect chunks, let c := Z.min 1048576 (size b) in let n := zlen chunks in
    chunks_for E (mkBA 8 7 true "blosclz") 1 c b chunks /\
    (if is_none m then sect = [] else section_of E m "adler32" "zlib" 6 (fun k mx => mx = 10 * k) sect) /\
    f = format true (negb (is_none m)) 1 8 c (size (last (chunks_of c b) [])) n (Z.min (10 * n) (2 ^ 63 - 1 - n)) sect chunks.
Proof. exact default_format. Qed.
Print Assumptions C86_defaults.

(** And a file stays in the format through appends and metadata rewrites. *)
Theorem C86_archive : forall E, EnvOK E -> forall f b m, archive E f b m ->
  exists off name ck ts c l r sect pieces chunks tail,
    f = format off (negb (is_none m)) ck ts c l (zlen chunks) r sect chunks ++ tail /\
    (if is_none m then sect = [] else section_holds E m sect) /\
    code_of ck name /\ header_nums_ok ts c l (zlen chunks) r /\
    concat pieces = b /\ map size pieces = repeat c (List.length chunks - 1) ++ [l] /\
    Forall2 (fun x y => exists a k g, e_compress E a x = Ok k /\ is_digest E ck k g /\ y = k ++ g) pieces chunks.
Proof. exact archive_format. Qed.
Print Assumptions C86_archive.

Definition got (r : res bytes) : bytes := match r with Ok x => x | Raise _ => [] end.
(** Three chunks of 20 bytes and less, room for two more. *)
Example C86_case_file : exists raw z k1 k2 k3,
  let d c := c ++ le 4 (adler_spec c) in
  e_dumps toy_env ex_meta = Ok raw /\ e_zcompress toy_env raw 6 = Ok z /\
  map (e_compress toy_env default_bargs) [sub 0 20 ex_data; sub 20 20 ex_data; sub 40 7 ex_data] = [Ok k1; Ok k2; Ok k3] /\
  ex_file = format true true 1 8 20 7 3 2 (meta_section 1 (if size raw <? size z then 0 else 1) 6 (10 * size raw) raw (if size raw <? size z then raw else z)
     (le 4 (adler_spec (if size raw <? size z then raw else z)))) [d k1; d k2; d k3].
Proof.
  exists (got (e_dumps toy_env ex_meta)), (got (e_zcompress toy_env (got (e_dumps toy_env ex_meta)) 6)),
    (got (e_compress toy_env default_bargs (sub 0 20 ex_data))), (got (e_compress toy_env default_bargs (sub 20 20 ex_data))),
    (got (e_compress toy_env default_bargs (sub 40 7 ex_data))).
  vm_compute. repeat split.
Qed.
Example C86_case_defaults : exists f k, pack_bytes_to_bytes toy_env ex_data (CSStr "1M") PNone None None None = Ok f /\
  e_compress toy_env (mkBA 8 7 true "blosclz") ex_data = Ok k /\
  f = b_of_string "blpk" ++ [x03; x01; x01; x08; x2f; x00; x00; x00; x2f; x00; x00; x00; x01] ++ repeat x00 7 ++ [x0a] ++ repeat x00 7 ++
      [x78] ++ repeat x00 7 ++ repeat xff 80 ++ k ++ le 4 (adler_spec k).
Proof.
  exists (got (pack_bytes_to_bytes toy_env ex_data (CSStr "1M") PNone None None None)), (got (e_compress toy_env (mkBA 8 7 true "blosclz") ex_data)).
  vm_compute. repeat split.
Qed.
(** A metadata section without compression and digest, in 40 bytes of room. *)
Example C86_case_meta : exists raw f k, e_dumps toy_env (PStr (u "x")) = Ok raw /\ size raw <= 40 /\ e_compress toy_env default_bargs [] = Ok k /\
  pack_bytes_to_bytes toy_env [] (CSInt 5) (PStr (u "x")) None (Some (mkBPA false "None" MAOther)) (Some (mkMA (b_of_string "JSON") "None" "None" 0 (MMInt 40))) = Ok f /\
  f = format false true 0 8 0 0 1 0 (meta_section 0 0 0 40 raw raw []) [k].
Proof.
  set (a := mkMA (b_of_string "JSON") "None" "None" 0 (MMInt 40)).
  exists (got (e_dumps toy_env (PStr (u "x")))), (got (pack_bytes_to_bytes toy_env [] (CSInt 5) (PStr (u "x")) None (Some (mkBPA false "None" MAOther)) (Some a))),
    (got (e_compress toy_env default_bargs [])).
  vm_compute. repeat split. discriminate.
Qed.
(** The file of PropsAppend that was appended to twice and given new metadata. *)
Example C86_case_archive : archive toy_env ex_f5 ((ex_data ++ ex_new1) ++ ex_new2) (norm ex_meta2) /\
  exists sect c1 c2 c3 c4, let d c := c ++ le 4 (adler_spec c) in
  map (fun i => e_compress toy_env default_bargs (sub (20 * i) 20 ((ex_data ++ ex_new1) ++ ex_new2))) [0; 1; 2; 3] = [Ok c1; Ok c2; Ok c3; Ok c4] /\
  size sect = 526 /\ ex_f5 = format true true 1 8 20 20 4 1 sect [d c1; d c2; d c3; d c4].
Proof.
  split; [exact ex_f5_archive|]. set (b := (ex_data ++ ex_new1) ++ ex_new2).
  exists (sub 32 526 ex_f5), (got (e_compress toy_env default_bargs (sub 0 20 b))), (got (e_compress toy_env default_bargs (sub 20 20 b))),
    (got (e_compress toy_env default_bargs (sub 40 20 b))), (got (e_compress toy_env default_bargs (sub 60 20 b))).
  vm_compute. repeat split.
Qed.
