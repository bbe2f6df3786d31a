(** * Vocabulary for several Tokenizers of one process (C21, C46, C47) *)
From Verif Require Import PyBase PyNum ModelFinalseg ModelSeg ModelDict ModelApi ModelInit ModelWorld.

(** calls that only ask *)
Definition query (o : op) : bool :=
  match o with
  | OpCut _ _ _ | OpCutForSearch _ _ | OpTokenize _ _ _ | OpGetDAG _ => true
  | OpSuggest _ tune => negb tune
  | _ => false
  end.

(** segmentation without HMM: full mode, HMM=False, the word graph *)
Definition without_hmm (o : op) : bool :=
  match o with
  | OpCut cut_all hmm _ => cut_all || negb hmm
  | OpCutForSearch hmm _ | OpTokenize _ hmm _ => negb hmm
  | OpGetDAG _ => true
  | _ => false
  end.

(** nothing differs *)
Definition same_world (w w' : world) : Prop :=
  (forall p, w_fs w p = w_fs w' p) /\ w_now w = w_now w' /\ (forall k, w_tok w k = w_tok w' k) /\
  w_force w = w_force w'.

(** the event is a call on another tokenizer than [i] (or no call) *)
Definition elsewhere (i : nat) (ev : event) : Prop :=
  match ev with
  | ENew k _ | EInit k _ _ | ESetDict k _ | ECall k _ _ => k <> i
  | EFiles _ _ => True
  end.

(** the tokenizer an event is on, as it is when it begins to load a dictionary,
    and what becomes of the cache *)
Definition loads_as (e : env) (w : world) (ev : event) : option (mem * dumping) :=
  match ev with
  | EInit k arg how => option_map (fun m => (m, how)) (init_arg e (w_tok w k) arg)
  | ECall k _ how => Some (w_tok w k, how)
  | _ => None
  end.

(** an event keeps off the dictionary and the cache of a tokenizer with attributes
    [m]: nobody changes files but by writing a cache; a cache never overwrites the
    dictionary, and one at the same place is of the same dictionary; temporary files
    are other files *)
Definition keeps_off (e : env) (m : mem) (w : world) (ev : event) : Prop :=
  (forall fs now, ev <> EFiles fs now) /\
  forall m' how, loads_as e w ev = Some (m', how) ->
    let c := cache_path e m' (m_dict m') in
    c <> dict_path e (m_dict m) /\
    (c = cache_path e m (m_dict m) -> m_dict m' = m_dict m) /\
    forall q b, how = NotDumped (Some (q, b)) -> q <> dict_path e (m_dict m) /\ q <> cache_path e m (m_dict m).

Fixpoint all_keep_off (e : env) (num : Num) (H : hmm num) (m : mem) (w : world) (evs : list event) : Prop :=
  match evs with
  | [] => True
  | ev :: evs' => keeps_off e m w ev /\ all_keep_off e num H m (fst (do_event e num H w ev)) evs'
  end.
