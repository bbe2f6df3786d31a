(** * Running the initialisation machine on concrete cases *)
From Coq Require Import Lia.
From Verif Require Import PyBase PyNum ModelSeg ModelDict ModelInit SpecInit ProofsInit.

Section Run.
  Variable e : env.
  Variable tok_of proc_of : nat -> nat.

  (** how a thread treats its cache file: give up, or write the file [q] in one go *)
  Inductive how := GiveUp | WriteTo (q : path).

  Definition stepf (h : how) (t : nat) (s : state) : option state :=
    let m := s_tok s (tok_of t) in
    let i := proc_of (tok_of t) in
    match s_pc s t with
    | PCheck => Some (goto s t (if m_init m then PPassed else PInitPath))
    | PInit None => Some (goto s t PInitPath)
    | PInit (Some _) | PInitSet _ | PInitUnset _ => None
    | PInitPath => Some (goto s t (PLock (m_dict m)))
    | PLock p => acquired s t (LSelf (tok_of t)) (PPeek p)
    | PPeek p => Some (goto s t (match s_writing s i p with Some l => PPeekLock p l | None => PTest p end))
    | PPeekLock p l => acquired s t (LWriting i l) (PPeekUnlock p l)
    | PPeekUnlock p l => Some (released s t (LWriting i l) (PTest p))
    | PTest p => Some (goto s t (if m_init m then PUnlock else PName p))
    | PName p => Some (goto s t (PIsfile p (cache_path e m p)))
    | PIsfile p c => Some (goto s t (match s_fs s c with
                                     | None => PWget p c
                                     | Some _ => match p with None => PLoad p c | Some _ => PMtime p c end
                                     end))
    | PMtime p c => Some (goto s t (match s_fs s c with
                                    | None => PUnlockExn FileNotFound
                                    | Some f => PMtime2 p c (f_mtime f)
                                    end))
    | PMtime2 p c k => Some (goto s t (match s_fs s (dict_path e p) with
                                       | None => PUnlockExn FileNotFound
                                       | Some f => if (f_mtime f <? k)%Z then PLoad p c else PWget p c
                                       end))
    | PLoad p c => match s_fs s c with
                   | Some f => match e_load e (f_bytes f) with
                               | Some x => Some (goto (with_log s (tok_of t) x) t (PLoadFreq p x))
                               | None => Some (goto s t (PWget p c))
                               end
                   | None => Some (goto s t (PWget p c))
                   end
    | PLoadFreq p x => Some (goto (with_tok s (tok_of t) (set_freq m (fst x))) t (PLoadTotal p x))
    | PLoadTotal p x => Some (goto (with_tok s (tok_of t) (set_total m (snd x))) t PSetInit)
    | PWget p c => Some (match s_writing s i p with
                         | Some l => goto s t (PWset p c l)
                         | None => goto (with_next s (S (s_next s))) t (PWset p c (s_next s))
                         end)
    | PWset p c l => Some (goto (with_writing s i p (Some l)) t (PWlock p c l))
    | PWlock p c l => acquired s t (LWriting i l) (PBuild p c l)
    | PBuild p c l => match build e (s_fs s) (m_dict m) with
                      | Ok x => Some (goto (with_log s (tok_of t) x) t (PBuildFreq p c l x))
                      | Err x => Some (goto s t (PWunlockExn l x))
                      end
    | PBuildFreq p c l x => Some (goto (with_tok s (tok_of t) (set_freq m (fst x))) t (PBuildTotal p c l x))
    | PBuildTotal p c l x => Some (goto (with_tok s (tok_of t) (set_total m (snd x))) t (PTemp p c l))
    | PTemp p c l =>
        match h with
        | GiveUp => Some (goto s t (PWunlock p l))
        | WriteTo q =>
            if e_temp e c q then
              match s_fs s q with
              | None => Some (goto (with_fs s (upd_fs (s_fs s) q (Some (mkFile [] (s_now s))))) t
                                   (PDump p c l q (m_freq m, m_total m) 0))
              | Some _ => None
              end
            else None
        end
    | PDump p c l q x k =>
        let n := length (e_dump e x) in
        if (k =? n)%nat then Some (goto s t (PRename p c l q))
        else if (k <? n)%nat then
          Some (goto (with_fs s (upd_fs (s_fs s) q (Some (mkFile (firstn n (e_dump e x)) (s_now s))))) t
                     (PDump p c l q x n))
        else None
    | PRename p c l q => match s_fs s q with
                         | Some f => Some (goto (with_fs s (upd_fs (upd_fs (s_fs s) q None) c (Some f))) t (PWunlock p l))
                         | None => None
                         end
    | PWunlock p l => Some (released s t (LWriting i l) (PDel p))
    | PDel p => Some (goto (with_writing s i p None) t PSetInit)
    | PSetInit => Some (goto (with_tok s (tok_of t) (set_init m true)) t PUnlock)
    | PUnlock => Some (released s t (LSelf (tok_of t)) PPassed)
    | PWunlockExn l x => Some (released s t (LWriting i l) (PUnlockExn x))
    | PUnlockExn x => Some (released s t (LSelf (tok_of t)) (PRaised x))
    | PPassed => Some (goto s t (PGotFreq (m_freq m)))
    | PGotFreq fr => Some (goto s t (PGot fr (m_total m)))
    | PGot _ _ | PRaised _ | PDead => None
    end.

  Lemma stepf_ok h t s s' : stepf h t s = Some s' -> step e tok_of proc_of t s s'.
  Proof.
    unfold stepf. cbv zeta. intros H. destruct (s_pc s t) eqn:E; try discriminate;
      try (injection H as <-; econstructor; eauto; fail); try (econstructor; eauto; fail).
    - destruct arg; [discriminate|]. injection H as <-. eapply st_init_none; eauto.
    - destruct (s_fs s c) as [f|] eqn:F.
      + destruct (e_load e (f_bytes f)) eqn:G; injection H as <-.
        * eapply st_load_ok; eauto.
        * eapply st_load_fail; eauto. now rewrite F.
      + injection H as <-. eapply st_load_fail; eauto. now rewrite F.
    - destruct (build _ _ _) eqn:B; injection H as <-; [eapply st_build_ok|eapply st_build_err]; eauto.
    - destruct h as [|q]; [injection H as <-; eapply st_dump_fail; eauto|].
      destruct (e_temp e c q) eqn:T; [|discriminate]. destruct (s_fs s q) eqn:F; [discriminate|].
      injection H as <-. eapply st_temp; eauto.
    - destruct (k =? _)%nat eqn:K; [injection H as <-; apply Nat.eqb_eq in K; subst; eapply st_dumped; eauto|].
      destruct (k <? _)%nat eqn:K2; [|discriminate]. injection H as <-. apply Nat.ltb_lt in K2.
      eapply st_dump; eauto.
    - destruct (s_fs s q) eqn:F; [|discriminate]. injection H as <-. eapply st_rename; eauto.
  Qed.

  (** [n] steps of thread [t], fewer if it cannot go on *)
  Fixpoint runf (n : nat) (h : how) (t : nat) (s : state) : state :=
    match n with
    | O => s
    | S n => match stepf h t s with Some s' => runf n h t s' | None => s end
    end.

  Lemma exec_trans may a b c : exec e tok_of proc_of may a b -> exec e tok_of proc_of may b c -> exec e tok_of proc_of may a c.
  Proof. intros H1 H2. induction H2; [assumption|]. eapply exec_snoc; eauto. Qed.

  Lemma runf_exec may n h t s : exec e tok_of proc_of may s (runf n h t s).
  Proof.
    revert s. induction n as [|n IH]; intros s; simpl; [constructor|].
    destruct (stepf h t s) as [s'|] eqn:E; [|constructor].
    eapply exec_trans; [|apply IH]. eapply exec_snoc; [constructor|]. eapply sys_thread, stepf_ok; eauto.
  Qed.
End Run.

(** ** A small world *)

(** marshal as a prefix code on lists of numbers *)
Definition enc_n (n : N) : bytes := repeat 1%N (N.to_nat n) ++ [0%N].
Fixpoint dec_n (b : bytes) : option (N * bytes) :=
  match b with
  | [] => None
  | x :: r => if (x =? 0)%N then Some (0%N, r)
              else match dec_n r with Some (n, r') => Some (N.succ n, r') | None => None end
  end.
Definition enc_list {A} (f : A -> bytes) (l : list A) : bytes := enc_n (N.of_nat (length l)) ++ flat_map f l.
Fixpoint dec_many {A} (f : bytes -> option (A * bytes)) (n : nat) (b : bytes) : option (list A * bytes) :=
  match n with
  | O => Some ([], b)
  | S n => match f b with
           | Some (a, r) => match dec_many f n r with Some (l, r') => Some (a :: l, r') | None => None end
           | None => None
           end
  end.
Definition dec_list {A} (f : bytes -> option (A * bytes)) (b : bytes) : option (list A * bytes) :=
  match dec_n b with Some (n, r) => dec_many f (N.to_nat n) r | None => None end.
Definition enc_z (z : Z) : bytes := (if (z <? 0)%Z then [1%N] else [0%N]) ++ enc_n (Z.to_N (Z.abs z)).
Definition dec_z (b : bytes) : option (Z * bytes) :=
  match b with
  | [] => None
  | x :: r => match dec_n r with
              | Some (n, r') => Some ((if (x =? 0)%N then Z.of_N n else - Z.of_N n)%Z, r')
              | None => None
              end
  end.
Definition enc_entry (a : str * Z) : bytes := enc_list enc_n (fst a) ++ enc_z (snd a).
Definition dec_entry (b : bytes) : option ((str * Z) * bytes) :=
  match dec_list dec_n b with
  | Some (w, r) => match dec_z r with Some (z, r') => Some ((w, z), r') | None => None end
  | None => None
  end.
Definition demo_dump (x : freqs * Z) : bytes := enc_list enc_entry (fst x) ++ enc_z (snd x).
Definition demo_load (b : bytes) : option (freqs * Z) :=
  match dec_list dec_entry b with
  | Some (fr, r) => match dec_z r with Some (z, []) => Some (fr, z) | _ => None end
  | None => None
  end.

Lemma dec_enc_n n r : dec_n (enc_n n ++ r) = Some (n, r).
Proof.
  unfold enc_n. rewrite <- app_assoc. simpl. rewrite <- (N2Nat.id n) at 2.
  induction (N.to_nat n) as [|k IH]; [reflexivity|].
  simpl repeat. cbn [app dec_n N.eqb]. rewrite IH. rewrite Nat2N.inj_succ. reflexivity.
Qed.

Lemma dec_enc_many {A} (enc : A -> bytes) dec l r :
  (forall a r, dec (enc a ++ r) = Some (a, r)) -> dec_many dec (length l) (flat_map enc l ++ r) = Some (l, r).
Proof.
  intros H. induction l as [|a l IH]; [reflexivity|]. simpl. rewrite <- app_assoc, H, IH. reflexivity.
Qed.

Lemma dec_enc_list {A} (enc : A -> bytes) dec l r :
  (forall a r, dec (enc a ++ r) = Some (a, r)) -> dec_list dec (enc_list enc l ++ r) = Some (l, r).
Proof.
  intros H. unfold dec_list, enc_list. rewrite <- app_assoc, dec_enc_n, Nat2N.id. now apply dec_enc_many.
Qed.

Lemma dec_enc_z z r : dec_z (enc_z z ++ r) = Some (z, r).
Proof.
  unfold dec_z, enc_z. rewrite <- app_assoc. destruct (z <? 0)%Z eqn:E; cbn [app N.eqb]; rewrite dec_enc_n;
    rewrite Z2N.id by lia; [apply Z.ltb_lt in E|apply Z.ltb_ge in E]; repeat f_equal; lia.
Qed.

Lemma dec_enc_entry a r : dec_entry (enc_entry a ++ r) = Some (a, r).
Proof.
  destruct a as [w z]. unfold dec_entry, enc_entry. simpl. rewrite <- app_assoc, dec_enc_list by apply dec_enc_n.
  now rewrite dec_enc_z.
Qed.

Lemma demo_marshal x : demo_load (demo_dump x) = Some x.
Proof.
  destruct x as [fr z]. unfold demo_load, demo_dump. simpl. rewrite dec_enc_list by apply dec_enc_entry.
  rewrite <- (app_nil_r (enc_z z)), dec_enc_z. reflexivity.
Qed.

(** paths: "/d" the packaged dictionary, "/u" and "/v" others, caches and temporary
    files in "/t"; temporary files are called "/t/tmp..." *)
Definition demo_env : env :=
  mkEnv (fun p => p) [47; 100]%N [47; 116]%N (fun a b => a ++ [47%N] ++ b) (fun p => p) demo_dump demo_load
    (fun _ q => str_eqb (firstn 6 q) [47; 116; 47; 116; 109; 112]%N).

Definition path_d : path := [47; 100]%N.
Definition path_u : path := [47; 117]%N.
Definition path_v : path := [47; 118]%N.
Definition path_tmp (n : N) : path := [47; 116; 47; 116; 109; 112; n]%N.

(** "a 3\nab 2\n", "b 5\n" and a line without a number *)
Definition file_1 : bytes := [97; 32; 51; 10; 97; 98; 32; 50; 10]%N.
Definition file_2 : bytes := [98; 32; 53; 10]%N.
Definition file_bad : bytes := [98; 10]%N.
Definition dict_1 : freqs * Z := ([([97], 3%Z); ([97; 98], 2%Z)]%N, 5%Z).
Definition dict_2 : freqs * Z := ([([98], 5%Z)]%N, 5%Z).

(** a world with the given files and tokenizers, all threads about to check *)
Definition demo_state (fs : path -> option file) (now : Z) (toks : nat -> mem) : state :=
  mkState fs now toks (fun _ => None) (fun _ _ => None) 0 (fun _ => PCheck) [].

Definition one_file (p : path) (b : bytes) (t : Z) : path -> option file :=
  fun q => if str_eqb q p then Some (mkFile b t) else None.
