(** Specification vocabulary: files all of whose chunks were made with the same
    Blosc arguments. *)
From Verif Require Import Base PyVal Checksums Headers Pretty Args FileIO Append Spec Archive.

Section WithEnv.
Variable E : Env.

(** [built ba f b m]: as [archive f b m] (Archive.v), and the pack and all
    successful appends used the Blosc arguments [ba]. *)
Inductive built (ba : bargs) : bytes -> bytes -> pyval -> Prop :=
| bu_pack b cs m oba obp oma f :
    the_bargs oba = ba -> pack_bytes_to_bytes E b cs m oba obp oma = Ok f -> built ba f b (norm m)
| bu_append f b m new oa f' k :
    built ba f b m -> sizable f new -> effective f oa = ba -> append_bytes E f new oa = (f', Ok k) -> built ba f' (b ++ new) m
| bu_append_failed f b m new oa f' e :
    built ba f b m -> sizable f new -> append_bytes E f new oa = (f', Raise e) -> built ba f' b m
| bu_rewrite f b m m' ov f' :
    built ba f b m -> m' <> PNone -> rewrite_bytes E f m' ov = (f', Ok tt) -> built ba f' b (norm m')
| bu_rewrite_failed f b m m' ov f' e :
    built ba f b m -> rewrite_bytes E f m' ov = (f', Raise e) -> built ba f' b m.
End WithEnv.
