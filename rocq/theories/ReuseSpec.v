(** Vocabulary for C76, independent of the model in Reuse.v. *)
From Verif Require Import Base PyVal Args NumpyIO Reuse.

(** The metadata of a job. *)
Definition job_meta (N : NpEnv) (j : job) : pyval := match j with JBytes _ _ m => m | JArray a _ => ndarray_meta N a end.
(** The item size of the last array without objects; [t] if there is none. *)
Definition last_item (t : Z) (l : list job) : Z :=
  fold_left (fun t j => match j with JArray a _ => if dt_hasobject (nd_dtype a) then t else nd_itemsize a | _ => t end) l t.
Definition with_typesize (b : bargs) (t : Z) : bargs := mkBA t (ba_clevel b) (ba_shuffle b) (ba_cname b).
Definition without_codec (a : margs) : margs := mkMA (ma_magic a) (ma_checksum a) "None" (ma_level a) (ma_max a).
