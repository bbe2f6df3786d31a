(** * The rest of the reader of the paddle mode: sizes and labels *)
From Verif Require Import PyBase ModelLac.

(** [max(d.values())], lac_small/reader_small.py:68,73; the empty case raises *)
Definition max_value (d : sdict Z) : res Z :=
  match map snd d with
  | [] => Err ValueError
  | v :: vs => Ok (fold_left Z.max vs v)
  end.

(** [vocab_size] and [num_labels], lines 65-73 *)
Definition size_of (d : sdict Z) : res Z := rbind (max_value d) (fun m => Ok (m + 1)%Z).

(** [label2id_dict], lines 61-62 *)
Definition load_labels (tag_dic : list str) : res (sdict Z) := load_kv_dict true int_value tag_dic.

(** [label_to_ids], lines 85-93 *)
Definition s_O : str := [79]%N.
Definition label_to_id (d : sdict Z) (label : str) : res Z :=
  lookup d (if smem d label then label else s_O).
Definition label_to_ids (d : sdict Z) (labels : list str) : res (list Z) := rmap (label_to_id d) labels.
