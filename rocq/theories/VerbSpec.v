(** Specification vocabulary for what 'blpk --verbose' prints. *)
From Verif Require Import Base PyVal Checksums Headers Pretty Args FileIO Append Files Cli Objects Log ObjectsSpec ReprSpec Report ReportSpec Spec Verbose.

Definition begins {A} (p l : list A) : Prop := exists r, l = p ++ r.
(** What a list of messages becomes on the screen. *)
Definition all_lines (ms : list text) (out : list text) : Prop :=
  exists outs, Forall2 (message_lines ": ") ms outs /\ out = concat outs.

Definition q (s : string) : text := t_ "'" ++ t_ s ++ t_ "'".
Definition length_of (s : fs) (p : path) : Z := match s p with Some d => size d | None => 0 end.
(** The messages before any file is looked at. *)
Definition threads (n : Z) : text := t_ "using " ++ int_text n ++ (if n =? 1 then t_ " thread" else t_ " threads").
(** The messages about the two files. *)
Definition opening (s : fs) (i o : path) : list text :=
  (match s o with Some _ => [t_ "overwriting existing file: " ++ q o] | None => [] end) ++
  [t_ "input file is: " ++ q i; t_ "output file is: " ++ q o].
(** How [n] bytes are cut into chunks of (at most) cs bytes; nothing for no bytes. *)
Definition plan_story (n cs : Z) : list text :=
  let c := Z.min cs n in
  let k := (n + c - 1) / c in
  if n =? 0 then [] else
  (if n <? cs then [t_ "Input was smaller than the given 'chunk_size': " ++ double_pretty_size cs ++ t_ " using: " ++ double_pretty_size n]
   else []) ++
  [t_ "nchunks: " ++ int_text k; t_ "chunk_size: " ++ double_pretty_size c; t_ "last_chunk_size: " ++ double_pretty_size (n - (k - 1) * c)].
(** The metadata of a file, as its two headers have it. *)
Definition metadata_story (f : bytes) : list text :=
  match header_decode (sub 0 32 f), mheader_decode (sub 32 32 f) with
  | Ok h, Ok mh => if h_metadata h
                   then [t_ "read " ++ (match mh_codec mh with CoNone => t_ "uncompressed" | CoZlib => t_ "compressed" end) ++
                         t_ " metadata of size: '" ++ int_text (mh_comp mh) ++ t_ "'"]
                   else []
  | _, _ => []
  end.

(** The size asked for with --chunk-size. *)
Definition chosen (o : copts) (cs : Z) : Prop :=
  match co_chunk o with None => cs = 2 ^ 20 | Some t => chunk_size_option t = Ok cs end.
(** The messages of a 'compress' with [cs] as chunk size that finds the files [s] and leaves [s']. *)
Definition compress_story (n : Z) (o : copts) (cs : Z) (s s' : fs) : list text :=
  let i := length_of s (co_in o) in let z := length_of s' (compress_out o) in
  [threads n; t_ "getting ready for compression"] ++ opening s (co_in o) (compress_out o) ++
  [t_ "input file size: " ++ double_pretty_size i] ++ plan_story i cs ++
  [t_ "output file size: " ++ double_pretty_size z; t_ "compression ratio: " ++ ratio_text i z].
Definition decompress_story (n : Z) (o : dopts) (out : path) (s s' : fs) : list text :=
  let i := length_of s (do_in o) in let z := length_of s' out in
  [threads n; t_ "getting ready for decompression"] ++ opening s (do_in o) out ++
  [t_ "input file size: " ++ t_ (pretty_size i)] ++ match s (do_in o) with Some f => metadata_story f | None => [] end ++
  [t_ "output file size: " ++ t_ (pretty_size z); t_ "decompression ratio: " ++ ratio_text z i].
(** The chunk size of a file, and how much of it the data in the last chunk leaves free. *)
Definition free_in_last (E : Env) (f : bytes) : res (Z * Z) :=
  snd ((bg <- read_beginning E ;;
        match rev (b_offsets bg) with
        | [] => raise RuntimeError
        | p :: _ => f_seek E p ;;;
                    c <- read_compressed_chunk E (h_checksum (b_header bg)) ;;
                    x <- lift (e_decompress E (fst (fst c))) ;;
                    ret (h_chunk_size (b_header bg), h_chunk_size (b_header bg) - size x)
        end) (fp_of f)).
(** [mid]: the files after append() and before the metadata is rewritten (if [again]);
    [room]: what fits into the last chunk. *)
Definition append_story (n : Z) (o : aopts) (again : bool) (cs room : Z) (s mid : fs) : list text :=
  let b := length_of s (ao_orig o) in let a := length_of mid (ao_orig o) in let x := length_of s (ao_new o) in
  let metadata t := match t (ao_orig o) with Some f => metadata_story f | None => [] end in
  [threads n; t_ "getting ready for append"; t_ "original file is: " ++ q (ao_orig o); t_ "new file is: " ++ q (ao_new o);
   t_ "orig file size before append: " ++ double_pretty_size b; t_ "new file size: " ++ double_pretty_size x] ++
  metadata s ++ (if room <? x then plan_story (x - room) cs else []) ++
  [t_ "orig file size after append: " ++ double_pretty_size a;
   t_ "Approximate compression ratio of appended data: " ++ ratio_text (a - b) x] ++
  (if again then metadata mid else []).

(** All of the messages if the result is there, otherwise some of them; [low] at least. *)
Definition between {A} (low story ms : list text) (r : res A) : Prop :=
  match r with Ok _ => ms = story | Raise _ => begins low ms /\ begins ms story end.
(** What is printed in any case: the messages before something fails, as far as the
    files and the options tell. *)
Definition files_fine (force : bool) (s : fs) (i o : path) : bool :=
  match s i, s o with None, _ => false | Some _, Some _ => force | Some _, None => true end.
Definition is_ok {A} (r : res A) : bool := match r with Ok _ => true | Raise _ => false end.
Definition compress_low (E : Env) (n : Z) (o : copts) (cs : Z) (s : fs) : list text :=
  let i := length_of s (co_in o) in
  [threads n; t_ "getting ready for compression"] ++
  if files_fine (co_force o) s (co_in o) (compress_out o) then
    opening s (co_in o) (compress_out o) ++
    if is_ok (snd (process_metadata_args E (co_meta o) s)) then
      [t_ "input file size: " ++ double_pretty_size i] ++
      if is_ok (calculate_nchunks i (CSInt cs)) then plan_story i cs else []
    else []
  else [].
Definition decompress_low (n : Z) (o : dopts) (out : path) (s : fs) : list text :=
  [threads n; t_ "getting ready for decompression"] ++
  if files_fine (do_force o) s (do_in o) out then
    opening s (do_in o) out ++ [t_ "input file size: " ++ t_ (pretty_size (length_of s (do_in o)))]
  else [].
Definition append_low (E : Env) (n : Z) (o : aopts) (s : fs) : list text :=
  [threads n; t_ "getting ready for append"] ++
  if (ao_no_check o || ends_with_ext (ao_orig o)) && fs_exists s (ao_orig o) && fs_exists s (ao_new o) then
    [t_ "original file is: " ++ q (ao_orig o); t_ "new file is: " ++ q (ao_new o)] ++
    if is_ok (snd (process_metadata_args E (ao_meta o) s)) then
      [t_ "orig file size before append: " ++ double_pretty_size (length_of s (ao_orig o));
       t_ "new file size: " ++ double_pretty_size (length_of s (ao_new o))] ++
      match s (ao_orig o) with
      | Some f => if is_ok (snd (read_beginning E (fp_of f))) then metadata_story f else []
      | None => []
      end
    else []
  else [].
(** Is there metadata to be put into the file? *)
Definition rewrites (E : Env) (o : aopts) (s : fs) : bool :=
  match snd (process_metadata_args E (ao_meta o) s) with Ok m => negb (is_none m) | Raise _ => false end.

(** The messages of each command, for the files before and after and the result. *)
Definition options_fine (E : Env) (o : copts) : bool :=
  is_ok (blosc_choices E (co_clevel o) (co_cname o)) && is_ok (check_valid_checksum (co_checksum o)) &&
  match co_chunk o with None => true | Some t => is_ok (chunk_size_option t) end.
Definition compress_told (E : Env) (n : Z) (o : copts) (s s' : fs) (r : res unit) (ms : list text) : Prop :=
  if options_fine E o then exists cs, chosen o cs /\ between (compress_low E n o cs s) (compress_story n o cs s s') ms r
  else ms = [].
Definition decompress_told (n : Z) (o : dopts) (s s' : fs) (r : res unit) (ms : list text) : Prop :=
  match decompress_out o with
  | Ok out => between (decompress_low n o out s) (decompress_story n o out s s') ms r
  | Raise _ => ms = [threads n; t_ "getting ready for decompression"]
  end.
Definition append_told (E : Env) (n : Z) (o : aopts) (s : fs) (r : res unit) (ms : list text) : Prop :=
  let mid := fst (append_file E (ao_orig o) (ao_new o) (obargs_of (mkBA (ao_typesize o) (ao_clevel o) (ao_shuffle o) (ao_cname o))) s) in
  if is_ok (blosc_choices E (ao_clevel o) (ao_cname o)) then
    begins (append_low E n o s) ms /\
    match s (ao_orig o) with
    | None => ms = append_low E n o s
    | Some f => match free_in_last E f with
                | Ok (cs, room) => between (append_low E n o s) (append_story n o (rewrites E o s) cs room s mid) ms r
                | Raise _ => ms = append_low E n o s \/
                             is_ok (snd (read_beginning E (fp_of f))) = false /\ begins ms (append_low E n o s ++ metadata_story f)
                end
    end
  else ms = [].
Definition info_told (E : Env) (n : Z) (p : path) (s : fs) (r : res unit) (ms : list text) : Prop :=
  match s p with
  | None => ms = [threads n]
  | Some f => between (threads n :: if is_ok (snd (read_beginning E (fp_of f))) then metadata_story f else [])
                      (threads n :: metadata_story f) ms r
  end.
Definition command_told (E : Env) (n : Z) (c : command) (s s' : fs) (r : res unit) (ms : list text) : Prop :=
  match c with
  | CmdCompress o => compress_told E n o s s' r ms
  | CmdDecompress o => decompress_told n o s s' r ms
  | CmdAppend o => append_told E n o s r ms
  | CmdInfo p => info_told E n p s r ms
  | CmdNone => ms = [threads n]
  end.
