(* Lemmas about the checksum registry, concurrent registration and the message factories. *)
From Coq Require Import ZArith List Bool String Lia.
From Verif.Model Require Import JavaPrim ByteBuf Checksum Ast Interp Factory Concurrent Library.
From Verif.Spec Require Import Bytes Registry Wire Reading Layouts.
Import ListNotations.

Definition exec_reg (c : cache) (o : reg_op) : cache :=
  match o with Reg s => snd (registry c s) | Rem n => remove_service c n | Clear => clear_services c end.
Definition reg_run (c : cache) (h : list reg_op) : cache := fold_left exec_reg h c.

Lemma get_remove c n m : cache_get (cache_remove c n) m = if String.eqb n m then None else cache_get c m.
Proof.
  unfold cache_remove. induction c as [|[k s] c IH]; cbn; [destruct (String.eqb n m); auto|].
  destruct (String.eqb_spec k n) as [->|Hk]; cbn; rewrite IH; [destruct (String.eqb n m); auto|].
  destruct (String.eqb_spec k m) as [->|Hm]; auto. destruct (String.eqb_spec n m); congruence.
Qed.
Lemma get_put c n s m : cache_get (cache_put c n s) m = if String.eqb n m then Some s else cache_get c m.
Proof. unfold cache_put. cbn. rewrite get_remove. destruct (String.eqb n m); auto. Qed.
Lemma get_registry c s m : cache_get (snd (registry c s)) m =
  match cache_get c m with Some t => Some t | None => if String.eqb (algorithm s) m then Some s else None end.
Proof.
  unfold registry. destruct (cache_get c (algorithm s)) as [t|] eqn:G; cbn.
  - destruct (cache_get c m) eqn:G'; auto. destruct (String.eqb_spec (algorithm s) m); congruence.
  - rewrite get_remove. destruct (String.eqb_spec (algorithm s) m) as [E|E]; [rewrite <- E, G; auto|]. destruct (cache_get c m); auto.
Qed.
Lemma registry_answer c s : fst (registry c s) = true <-> cache_get c (algorithm s) = None.
Proof. unfold registry. destruct (cache_get c (algorithm s)); cbn; split; congruence. Qed.

Lemma exec_not_frees n o c s : ~ frees n o -> cache_get c n = Some s -> cache_get (exec_reg c o) n = Some s.
Proof.
  intros F G. destruct o as [t|m|]; cbn.
  - rewrite get_registry, G. auto.
  - unfold remove_service. rewrite get_remove. destruct (String.eqb_spec m n) as [->|]; auto. destruct F. left. auto.
  - destruct F. right. auto.
Qed.
Lemma exec_not_registers n o c : ~ registers n o -> cache_get c n = None -> cache_get (exec_reg c o) n = None.
Proof.
  intros F G. destruct o as [t|m|]; cbn; auto.
  - rewrite get_registry, G. destruct (String.eqb_spec (algorithm t) n); auto. destruct F. exists t. auto.
  - unfold remove_service. rewrite get_remove. destruct (String.eqb m n); auto.
Qed.
Lemma exec_frees n o c : frees n o -> cache_get (exec_reg c o) n = None.
Proof. intros [->| ->]; cbn; auto. unfold remove_service. rewrite get_remove, String.eqb_refl. auto. Qed.
Lemma run_app c h g : reg_run c (h ++ g) = reg_run (reg_run c h) g.
Proof. apply fold_left_app. Qed.
Lemma run_not_frees n h c s : Forall (fun o => ~ frees n o) h -> cache_get c n = Some s -> cache_get (reg_run c h) n = Some s.
Proof. intros F; revert c; induction F; intros c G; cbn; auto. apply IHF. apply exec_not_frees; auto. Qed.
Lemma run_not_registers n h c : Forall (fun o => ~ registers n o) h -> cache_get c n = None -> cache_get (reg_run c h) n = None.
Proof. intros F; revert c; induction F; intros c G; cbn; auto. apply IHF. apply exec_not_registers; auto. Qed.

Lemma holder_get h n s : holder h n s -> cache_get (reg_run [] h) n = Some s.
Proof.
  intros (start & mid & post & -> & An & Hs & Hm & Hp). rewrite !run_app. change (Reg s :: post) with ([Reg s] ++ post). rewrite run_app.
  apply run_not_frees; auto. cbn. rewrite get_registry.
  assert (N : cache_get (reg_run (reg_run [] start) mid) n = None).
  { apply run_not_registers; auto. destruct Hs as [->|(p & o & -> & F)]; auto. rewrite run_app. cbn. apply exec_frees; auto. }
  rewrite N, An, String.eqb_refl. auto.
Qed.
Definition free_split (h : list reg_op) (n : string) : Prop :=
  exists start mid, h = start ++ mid /\ (start = [] \/ exists p o, start = p ++ [o] /\ frees n o) /\ Forall (fun o => ~ registers n o) mid.
Lemma get_holder h n : match cache_get (reg_run [] h) n with Some s => holder h n s | None => free_split h n end.
Proof.
  induction h as [|o h IH] using rev_ind.
  - cbn. exists [], []. repeat split; auto.
  - rewrite run_app. cbn [reg_run fold_left].
    assert (D : frees n o \/ ~ frees n o).
    { destruct o as [t|m|]; [right; intros [H|H]; discriminate| |left; right; auto].
      destruct (string_dec m n) as [->|]; [left; left; auto|right; intros [H|H]; [injection H as E; contradiction|discriminate]]. }
    destruct D as [F|F].
    + rewrite exec_frees by auto. exists (h ++ [o]), []. rewrite app_nil_r. split; auto. split; [right; exists h, o; auto|constructor].
    + fold (reg_run [] h). destruct (cache_get (reg_run [] h) n) as [s|] eqn:G.
      * rewrite (exec_not_frees n o _ s F G). destruct IH as (start & mid & post & -> & An & Hs & Hm & Hp).
        exists start, mid, (post ++ [o]). rewrite <- !app_assoc. cbn. split; auto. split; auto. split; auto. split; auto.
        apply Forall_app. split; auto.
      * destruct IH as (start & mid & -> & Hs & Hm).
        assert (D : registers n o \/ ~ registers n o).
        { destruct o as [t|m|]; [|right; intros (? & H & _); discriminate|right; intros (? & H & _); discriminate].
          destruct (string_dec (algorithm t) n) as [E|E]; [left; exists t; auto|right; intros (t' & [= <-] & E'); contradiction]. }
        destruct D as [(t & -> & An)|N].
        -- cbn. rewrite get_registry, G, An, String.eqb_refl. exists start, mid, []. rewrite <- app_assoc. repeat split; auto.
        -- rewrite exec_not_registers by auto. exists start, (mid ++ [o]). rewrite app_assoc. split; auto. split; auto. apply Forall_app. auto.
Qed.
Lemma get_iff_holder h n s : cache_get (reg_run [] h) n = Some s <-> holder h n s.
Proof. split; [|apply holder_get]. intros G. pose proof (get_holder h n) as H. rewrite G in H. exact H. Qed.

(* ---- concurrent registration ---- *)
Definition service_of (t : thread) : service := match t with Calling s | Passed s | Answered s _ => s end.
Definition finished (t : thread) : bool := match t with Answered _ _ => true | _ => false end.
Definition said_true (t : thread) : bool := match t with Answered _ true => true | _ => false end.

Lemma steps_app s1 s2 c ts : steps (s1 ++ s2) c ts = let '(c', ts') := steps s1 c ts in steps s2 c' ts'.
Proof. revert c ts; induction s1; intros; cbn; auto. destruct (step a c ts). apply IHs1. Qed.
Lemma step_services i c ts : map service_of (snd (step i c ts)) = map service_of ts.
Proof.
  revert i; induction ts as [|t r IH]; intros i; [destruct i; auto|]. destruct i; cbn.
  - destruct (thread_step c t) as [c' t'] eqn:E. cbn. f_equal. destruct t; cbn in E; [destruct (cache_get c (algorithm s))| |]; injection E as <- <-; auto.
  - specialize (IH i). destruct (step i c r). cbn in *. f_equal. auto.
Qed.
(* a step either keeps the cache or stores the service of a thread that answers true *)
Lemma step_cache i c ts : let '(c', ts') := step i c ts in
  (c' = c /\ forall t, In t ts' -> said_true t = true -> In t ts)
  \/ exists s, In (Passed s) ts /\ c' = cache_put c (algorithm s) s /\ In (Answered s true) ts'.
Proof.
  revert i; induction ts as [|t r IH]; intros i; [destruct i; cbn; left; auto|]. destruct i; cbn.
  - destruct t as [s|s|s b]; cbn.
    + destruct (cache_get c (algorithm s)); left; (split; auto); intros t [<-|H] E; try discriminate; right; auto.
    + right. exists s. auto.
    + left. split; auto.
  - specialize (IH i). destruct (step i c r) as [c' r']. destruct IH as [[-> H]|(s & H1 & H2 & H3)].
    + left. split; auto. intros t' [<-|H'] E; [left; auto|right; auto].
    + right. exists s. split; [auto|]. split; [auto|right; auto].
Qed.
Lemma step_keeps_true i c ts s : In (Answered s true) ts -> In (Answered s true) (snd (step i c ts)).
Proof.
  revert i; induction ts as [|t r IH]; intros i H; [destruct i; auto|]. destruct i; cbn.
  - destruct H as [->|H]; [cbn; auto|]. destruct (thread_step c t). cbn. auto.
  - destruct (step i c r) as [c' r'] eqn:E. cbn. destruct H as [->|H]; auto. right. specialize (IH i H). rewrite E in IH. auto.
Qed.
(* who may be past the test, and what the cache says *)
Definition inv (n : string) (c0 : cache) (c : cache) (ts : list thread) : Prop :=
  match cache_get c0 n with
  | Some s0 => cache_get c n = Some s0 /\ forall t, In t ts -> algorithm (service_of t) = n -> said_true t = false /\ (forall s, t <> Passed s)
  | None => match cache_get c n with
            | Some s => In (Answered s true) ts
            | None => forall t, In t ts -> algorithm (service_of t) = n -> finished t = false
            end
  end.
Lemma step_inv n c0 i c ts : inv n c0 c ts -> inv n c0 (fst (step i c ts)) (snd (step i c ts)).
Proof.
  unfold inv. destruct (cache_get c0 n) as [s0|] eqn:G0.
  - intros [G H]. revert i H. induction ts as [|t r IH]; intros i H; [destruct i; cbn; auto|]. destruct i; cbn.
    + destruct t as [s|s|s b]; cbn.
      * destruct (cache_get c (algorithm s)) eqn:Gs; cbn; (split; auto); intros t [<-|Hin] E; auto.
        -- split; auto. discriminate.
        -- apply H; auto. right; auto.
        -- exfalso. cbn in E. congruence.
        -- apply H; auto. right; auto.
      * assert (E : algorithm s <> n) by (intros E; destruct (H (Passed s) (or_introl eq_refl) E) as [_ F]; apply (F s); auto).
        cbn. rewrite get_remove. destruct (String.eqb_spec (algorithm s) n); [contradiction|]. split; auto. intros t [<-|Hin] E'; [contradiction|].
        apply H; auto. right; auto.
      * split; auto.
    + destruct (step i c r) as [c' r'] eqn:E. cbn. specialize (IH i). rewrite E in IH. cbn in IH. destruct IH as [I1 I2].
      * intros t' Hin. apply H. right; auto.
      * split; auto. intros t' [<-|Hin]; [apply H; left; auto|auto].
  - destruct (cache_get c n) as [s|] eqn:G.
    + intros H. pose proof (step_cache i c ts) as S. pose proof (step_keeps_true i c ts s H) as K. destruct (step i c ts) as [c' ts']. cbn in *.
      destruct S as [[-> _]|(s' & _ & -> & Hin)]; [rewrite G; auto|]. rewrite get_put. destruct (String.eqb_spec (algorithm s') n); [auto|rewrite G; auto].
    + intros H. revert i H. induction ts as [|t r IH]; intros i H; [destruct i; cbn; rewrite G; auto|]. destruct i; cbn.
      * destruct t as [s|s|s b]; cbn.
        -- destruct (cache_get c (algorithm s)) eqn:Gs; cbn; rewrite G; intros t [<-|Hin] E; auto.
           ++ cbn in E. congruence.
           ++ apply H; auto. right; auto.
           ++ apply H; auto. right; auto.
        -- rewrite get_remove, G. destruct (String.eqb_spec (algorithm s) n) as [E|E]; [left; auto|]. intros t [<-|Hin] E'; [contradiction|].
           apply H; auto. right; auto.
        -- rewrite G. auto.
      * specialize (IH i). destruct (step i c r) as [c' r'] eqn:E. cbn in *. destruct (cache_get c' n) as [s|].
        -- right. apply IH. intros t' Hin. apply H. right; auto.
        -- intros t' [<-|Hin]; [apply H; left; auto|]. apply IH; [|auto]. intros t2 Hin'. apply H. right; auto.
Qed.
Lemma steps_inv n c0 sched c ts : inv n c0 c ts -> inv n c0 (fst (steps sched c ts)) (snd (steps sched c ts)).
Proof. revert c ts; induction sched as [|i r IH]; intros c ts H; cbn; auto. pose proof (step_inv n c0 i c ts H) as S. destruct (step i c ts) as [c' ts']. apply IH. exact S. Qed.
Lemma start_inv n c ss : inv n c c (map Calling ss).
Proof.
  unfold inv. destruct (cache_get c n) as [s0|].
  - split; auto. intros t Hin. apply in_map_iff in Hin. destruct Hin as (s & <- & _). split; [auto|discriminate].
  - intros t Hin. apply in_map_iff in Hin. destruct Hin as (s & <- & _). auto.
Qed.
Lemma steps_services sched c ts : map service_of (snd (steps sched c ts)) = map service_of ts.
Proof. revert c ts; induction sched as [|i r IH]; intros c ts; cbn; auto. pose proof (step_services i c ts) as S. destruct (step i c ts) as [c' ts']. rewrite IH. exact S. Qed.

Lemma steps_keys sched c ts n s : (forall s, cache_get c n = Some s -> algorithm s = n) ->
  cache_get (fst (steps sched c ts)) n = Some s -> algorithm s = n.
Proof.
  revert c ts; induction sched as [|i r IH]; intros c ts H G; cbn in G; [auto|]. pose proof (step_cache i c ts) as S.
  destruct (step i c ts) as [c' ts']. apply (IH c' ts'); auto. intros s' G'. destruct S as [[-> _]|(u & _ & -> & _)]; auto.
  rewrite get_put in G'. destruct (String.eqb_spec (algorithm u) n); [congruence|auto].
Qed.

(* calls that are not interrupted *)
Definition idle (n : string) (t : thread) : Prop := algorithm (service_of t) = n /\ forall s, t <> Passed s.
Lemma call_at_once n i c ts : (forall t, In t ts -> idle n t) ->
  let '(c', ts') := (let '(c1, ts1) := step i c ts in step i c1 ts1) in
  (forall t, In t ts' -> idle n t) /\ ((c' = c /\ filter said_true ts' = filter said_true ts)
   \/ (cache_get c n = None /\ cache_get c' n <> None /\ List.length (filter said_true ts') = S (List.length (filter said_true ts)))).
Proof.
  revert i; induction ts as [|t r IH]; intros i H; [destruct i; cbn; auto|].
  assert (Hr : forall t', In t' r -> idle n t') by (intros; apply H; right; auto).
  destruct (H t (or_introl eq_refl)) as [Ha Hp]. destruct i; cbn.
  - destruct t as [s|s|s b]; cbn in *; [|destruct (Hp s eq_refl)|].
    + rewrite Ha. destruct (cache_get c n) eqn:G; cbn.
      * split; [|left; auto]. intros t [<-|Hin]; auto. split; [auto|discriminate].
      * split; [intros t [<-|Hin]; auto; split; [auto|discriminate]|]. right. split; auto. rewrite Ha, String.eqb_refl. split; [discriminate|auto].
    + split; [intros t [<-|Hin]; auto|left; auto].
  - specialize (IH i Hr). destruct (step i c r) as [c1 r1]. destruct (step i c1 r1) as [c2 r2]. destruct IH as [I1 I2]. cbn.
    split; [intros t' [<-|Hin]; auto; split; auto|]. destruct I2 as [[-> E]|(E1 & E2 & E3)].
    + left. split; auto. destruct (said_true t); congruence.
    + right. split; auto. split; auto. destruct (said_true t); cbn; auto.
Qed.
Lemma calls_at_once n order c ts : (forall t, In t ts -> idle n t) ->
  (List.length (filter said_true ts) <= match cache_get c n with Some _ => 1 | None => 0 end)%nat ->
  (List.length (filter said_true (snd (steps (flat_map (fun i => [i; i]) order) c ts))) <= 1)%nat.
Proof.
  revert c ts; induction order as [|i order IH]; intros c ts H B; cbn [flat_map].
  - cbn. destruct (cache_get c n); lia.
  - rewrite steps_app. cbn [steps]. pose proof (call_at_once n i c ts H) as S. destruct (step i c ts) as [c1 ts1]. destruct (step i c1 ts1) as [c2 ts2].
    destruct S as [S1 S2]. apply IH; auto. destruct S2 as [[-> E]|(E1 & E2 & E3)].
    + rewrite E. exact B.
    + rewrite E1 in B. destruct (cache_get c2 n); [lia|congruence].
Qed.
Lemma atomic_calls : forall order c n ss c' ts', steps (flat_map (fun i => [i; i]) order) c (map Calling ss) = (c', ts') ->
  (forall s, In s ss -> algorithm s = n) -> (List.length (filter said_true ts') <= 1)%nat.
Proof.
  intros order c n ss c' ts' E H. pose proof (calls_at_once n order c (map Calling ss)) as C. rewrite E in C. apply C.
  - intros t Hin. apply in_map_iff in Hin. destruct Hin as (s & <- & Hs). split; [cbn; auto|discriminate].
  - replace (filter said_true (map Calling ss)) with (@nil thread); [cbn; destruct (cache_get c n); lia|]. clear. induction ss; auto.
Qed.

(* all threads test first, then all put *)
Lemma pass_all c ss n pre : cache_get c n = None -> (forall s, In s ss -> algorithm s = n) ->
  steps (seq (List.length pre) (List.length ss)) c (map Passed pre ++ map Calling ss) = (c, map Passed (pre ++ ss)).
Proof.
  intros G. revert pre; induction ss as [|s ss IH]; intros pre H; [cbn; rewrite !app_nil_r; auto|]. cbn [List.length seq steps].
  assert (S : step (List.length pre) c (map Passed pre ++ map Calling (s :: ss)) = (c, map Passed (pre ++ [s]) ++ map Calling ss)).
  { clear IH. induction pre as [|p pre IHp]; cbn.
    - rewrite (H s (or_introl eq_refl)), G. auto.
    - cbn in IHp. rewrite IHp. auto. }
  rewrite S. replace (Datatypes.S (List.length pre)) with (List.length (pre ++ [s])) by (rewrite app_length; cbn; lia).
  rewrite IH by (intros; apply H; right; auto). rewrite <- app_assoc. auto.
Qed.
Lemma put_all c ss pre : steps (seq (List.length pre) (List.length ss)) c (map (fun s => Answered s true) pre ++ map Passed ss)
  = (fold_left (fun c s => cache_put c (algorithm s) s) ss c, map (fun s => Answered s true) (pre ++ ss)).
Proof.
  revert c pre; induction ss as [|s ss IH]; intros c pre; [cbn; rewrite !app_nil_r; auto|]. cbn [List.length seq steps].
  assert (S : step (List.length pre) c (map (fun s => Answered s true) pre ++ map Passed (s :: ss))
            = (cache_put c (algorithm s) s, map (fun s => Answered s true) (pre ++ [s]) ++ map Passed ss)).
  { clear IH. induction pre as [|p pre IHp]; cbn; auto. cbn in IHp. rewrite IHp. auto. }
  rewrite S. replace (Datatypes.S (List.length pre)) with (List.length (pre ++ [s])) by (rewrite app_length; cbn; lia).
  rewrite IH. rewrite <- app_assoc. auto.
Qed.
Lemma get_put_all ss c s : cache_get (fold_left (fun c s => cache_put c (algorithm s) s) (ss ++ [s]) c) (algorithm s) = Some s.
Proof. rewrite fold_left_app. cbn. rewrite String.eqb_refl. auto. Qed.

(* ---- message factories ---- *)
Definition exec_fac (m : fmap) (o : fac_op) : fmap :=
  match o with Put k c => register m k c | Del k => snd (unregister m k) end.
Definition fac_run (m : fmap) (h : list fac_op) : fmap := fold_left exec_fac h m.

Lemma key_eqb_spec a b : reflect (a = b) (key_eqb a b).
Proof.
  destruct a as [x|x], b as [y|y]; cbn; try (constructor; discriminate).
  - destruct (Z.eqb_spec x y); constructor; congruence.
  - destruct (list_eq_dec Z.eq_dec x y); constructor; congruence.
Qed.
Lemma f_get_remove m k k' : f_get (f_remove m k) k' = if key_eqb k k' then None else f_get m k'.
Proof.
  unfold f_remove. induction m as [|[q c] m IH]; cbn; [destruct (key_eqb k k'); auto|].
  destruct (key_eqb_spec k q) as [<-|Hq]; cbn; rewrite IH.
  - destruct (key_eqb_spec k k') as [->|]; auto. destruct (key_eqb_spec k' k); [congruence|auto].
  - destruct (key_eqb_spec k' q) as [->|]; auto. destruct (key_eqb_spec k q); congruence.
Qed.
Lemma f_get_put m k c k' : f_get (f_put m k c) k' = if key_eqb k k' then Some c else f_get m k'.
Proof.
  unfold f_put. cbn. rewrite f_get_remove. destruct (key_eqb_spec k' k); destruct (key_eqb_spec k k'); congruence.
Qed.
Lemma exec_fac_names m o k : match o with
  | Put q c => f_get (exec_fac m o) k = if key_eqb q k then Some c else f_get m k
  | Del q => f_get (exec_fac m o) k = if key_eqb q k then None else f_get m k end.
Proof. destruct o; cbn; [apply f_get_put|apply f_get_remove]. Qed.
Lemma exec_fac_other m o k : ~ names k o -> f_get (exec_fac m o) k = f_get m k.
Proof.
  intros N. pose proof (exec_fac_names m o k) as E. destruct o as [q c|q]; rewrite E; destruct (key_eqb_spec q k) as [->|]; auto; destruct N; [left; eauto|right; auto].
Qed.
Lemma fac_run_untouched h m k : untouched h k -> f_get (fac_run m h) k = f_get m k.
Proof. intros U; revert m; induction U as [|o h N U IH]; intros m; [auto|]. cbn [fac_run fold_left]. etransitivity; [apply IH|]. apply exec_fac_other; auto. Qed.
Lemma fac_run_app m h g : fac_run m (h ++ g) = fac_run (fac_run m h) g.
Proof. apply fold_left_app. Qed.
Lemma fac_cases h k : untouched h k \/ (exists c, current h k c) \/ (exists pre post, h = pre ++ Del k :: post /\ untouched post k).
Proof.
  induction h as [|o h IH] using rev_ind; [left; constructor|].
  assert (D : (exists c, o = Put k c) \/ o = Del k \/ ~ names k o).
  { destruct o as [q c|q]; destruct (key_eqb_spec q k) as [->|N]; eauto; right; right; intros [(c' & [= E E'])|E]; try congruence; try discriminate. }
  destruct D as [(c & ->)|[->|N]].
  - right; left. exists c, h, []. split; auto.
  - right; right. exists h, []. split; auto. constructor.
  - destruct IH as [U|[(c & pre & post & -> & U)|(pre & post & -> & U)]].
    + left. apply Forall_app; auto.
    + right; left. exists c, pre, (post ++ [o]). rewrite <- app_assoc. split; auto. apply Forall_app; auto.
    + right; right. exists pre, (post ++ [o]). rewrite <- app_assoc. split; auto. apply Forall_app; auto.
Qed.
Lemma fac_run_current m h k c : current h k c -> f_get (fac_run m h) k = Some c.
Proof.
  intros (pre & post & -> & U). rewrite fac_run_app. etransitivity; [exact (fac_run_untouched post _ k U)|]. cbn [exec_fac]. unfold register.
  rewrite f_get_put. destruct (key_eqb_spec k k); congruence.
Qed.
Lemma fac_run_deleted m h k : (exists pre post, h = pre ++ Del k :: post /\ untouched post k) -> f_get (fac_run m h) k = None.
Proof.
  intros (pre & post & -> & U). rewrite fac_run_app. etransitivity; [exact (fac_run_untouched post _ k U)|]. unfold exec_fac, unregister. cbn [snd].
  rewrite f_get_remove. destruct (key_eqb_spec k k); congruence.
Qed.
Lemma fac_get_iff m h k c : f_get (fac_run m h) k = Some c <-> current h k c \/ (untouched h k /\ f_get m k = Some c).
Proof.
  split.
  - intros G. destruct (fac_cases h k) as [U|[(c' & Hc)|Hd]].
    + right. rewrite fac_run_untouched in G by auto. auto.
    + left. rewrite (fac_run_current m h k c' Hc) in G. injection G as ->. auto.
    + rewrite fac_run_deleted in G by auto. discriminate.
  - intros [H|[U G]]; [apply fac_run_current; auto|rewrite fac_run_untouched; auto].
Qed.

Lemma on_factory_other W o f o' k : o <> o' -> lookup_factory (on_factory W o f) o' k = lookup_factory W o' k.
Proof.
  intros N. unfold lookup_factory. replace (assoc o' (on_factory W o f)) with (assoc o' W); auto.
  induction W as [|[q m] W IH]; cbn; auto. destruct (String.eqb_spec o q) as [->|]; cbn.
  - destruct (String.eqb_spec o' q); [congruence|auto].
  - destruct (String.eqb o' q); auto.
Qed.
Lemma on_factory_same W o f m k : assoc o W = Some m -> lookup_factory (on_factory W o f) o k = f_get (f m) k.
Proof.
  intros A. unfold lookup_factory. replace (assoc o (on_factory W o f)) with (Some (f m)); auto.
  induction W as [|[q m'] W IH]; cbn in *; [discriminate|]. destruct (String.eqb_spec o q) as [->|N]; cbn.
  - rewrite String.eqb_refl. congruence.
  - destruct (String.eqb_spec o q); [congruence|auto].
Qed.

(* ---- SseBinary.BodyMessageFactory ---- *)
Definition exec_sse (s : sse_factory) (o : sse_op) : sse_factory :=
  match o with SReg clazz t c => sse_register s clazz t c | SDel t => snd (sse_unregister s t) end.
Definition sse_run (s : sse_factory) (h : list sse_op) : sse_factory := fold_left exec_sse h s.

Lemma assoc_r_put m c t c' : assoc c' (r_put m c t) = if String.eqb c' c then Some t else assoc c' m.
Proof.
  induction m as [|[q x] m IH]; cbn; auto. destruct (String.eqb_spec c q) as [->|N]; cbn.
  - destruct (String.eqb c' q); auto.
  - rewrite IH. destruct (String.eqb_spec c' q) as [->|]; auto. destruct (String.eqb_spec q c); congruence.
Qed.
Definition to_fac (o : sse_op) : fac_op := match o with SReg _ t c => Put (KInt t) c | SDel t => Del (KInt t) end.
Lemma sse_body_run s h : body_map (sse_run s h) = fac_run (body_map s) (map to_fac h).
Proof. revert s; induction h as [|o h IH]; intros s; [auto|]. cbn [sse_run fac_run map fold_left]. etransitivity; [apply IH|]. destruct o; auto. Qed.
Lemma untouched_tag h t : untouched (map to_fac h) (KInt t) <-> Forall (fun o => ~ names_tag t o) h.
Proof.
  unfold untouched. rewrite Forall_map. split; intros H; refine (Forall_impl _ _ H); intros o N Q; apply N.
  - destruct Q as [(cl & c & ->)| ->]; [left; eexists; reflexivity|right; auto].
  - destruct o as [cl q c|q]; destruct Q as [(c' & [= E E'])|E]; try discriminate; [left|right]; [exists cl, c|injection E as E]; congruence.
Qed.
Definition current_tag (h : list sse_op) (t : Z) (c : string) : Prop :=
  exists pre clazz post, h = pre ++ SReg clazz t c :: post /\ Forall (fun o => ~ names_tag t o) post.
Lemma current_tag_fac h t c : current (map to_fac h) (KInt t) c <-> current_tag h t c.
Proof.
  split.
  - intros (pre & post & E & U). apply map_eq_app in E. destruct E as (p1 & q1 & -> & <- & E). destruct q1 as [|o q1]; [discriminate|].
    injection E as E1 <-. destruct o as [cl q c'|q]; [|discriminate]. injection E1 as -> ->. exists p1, cl, q1. split; auto. apply untouched_tag; auto.
  - intros (pre & cl & post & -> & U). exists (map to_fac pre), (map to_fac post). rewrite map_app. split; auto. apply untouched_tag; auto.
Qed.
Lemma sse_get_tag s h t c : f_get (body_map (sse_run s h)) (KInt t) = Some c <->
  current_tag h t c \/ (Forall (fun o => ~ names_tag t o) h /\ f_get (body_map s) (KInt t) = Some c).
Proof. rewrite sse_body_run, fac_get_iff, current_tag_fac, untouched_tag. reflexivity. Qed.
Definition current_class (h : list sse_op) (clazz : string) (t : Z) : Prop :=
  exists pre c post, h = pre ++ SReg clazz t c :: post /\ Forall (fun o => ~ names_class clazz o) post.
Lemma sse_run_app s h g : sse_run s (h ++ g) = sse_run (sse_run s h) g.
Proof. apply fold_left_app. Qed.
Lemma exec_sse_class s o clazz : ~ names_class clazz o -> sse_get_msg_type (exec_sse s o) clazz = sse_get_msg_type s clazz.
Proof.
  intros N. destruct o as [cl t c|t]; auto. unfold sse_get_msg_type. cbn. rewrite assoc_r_put. destruct (String.eqb_spec clazz cl) as [->|]; auto.
  destruct N. exists t, c. auto.
Qed.
Lemma sse_run_class s h clazz : Forall (fun o => ~ names_class clazz o) h -> sse_get_msg_type (sse_run s h) clazz = sse_get_msg_type s clazz.
Proof. intros U; revert s; induction U as [|o h N U IH]; intros s; [auto|]. cbn [sse_run fold_left]. etransitivity; [apply IH|]. apply exec_sse_class; auto. Qed.
Lemma sse_get_class s h clazz t : sse_get_msg_type (sse_run s h) clazz = Some t <->
  current_class h clazz t \/ (Forall (fun o => ~ names_class clazz o) h /\ sse_get_msg_type s clazz = Some t).
Proof.
  revert t. induction h as [|o h IH] using rev_ind; intros t.
  - cbn. split; [intros H; right; split; auto|intros [(pre & c & post & E & _)|[_ H]]; auto]. destruct pre; discriminate.
  - assert (D : (exists t c, o = SReg clazz t c) \/ ~ names_class clazz o).
    { destruct o as [cl q c|q]; [destruct (string_dec cl clazz) as [->|N]; [left; eauto|]|]; right; intros (t' & c' & E); [congruence|discriminate]. }
    rewrite sse_run_app. cbn [sse_run fold_left]. fold (sse_run s h). destruct D as [(t' & c & ->)|N].
    + unfold sse_get_msg_type. cbn. rewrite assoc_r_put, String.eqb_refl. split.
      * intros [= <-]. left. exists h, c, []. split; auto.
      * intros [(pre & c' & post & E & U)|[U _]].
        -- destruct post as [|x post] using rev_ind; [apply app_inj_tail in E; destruct E as [_ [= -> _]]; auto|].
           clear IHpost. change (pre ++ SReg clazz t c' :: post ++ [x]) with (pre ++ (SReg clazz t c' :: post) ++ [x]) in E. rewrite app_assoc in E.
           apply app_inj_tail in E. destruct E as [_ <-]. apply Forall_app in U. destruct U as [_ U]. inversion U as [|? ? N _]. destruct N. exists t', c. auto.
        -- apply Forall_app in U. destruct U as [_ U]. inversion U as [|? ? N _]. destruct N. exists t', c. auto.
    + rewrite exec_sse_class by auto. rewrite IH. split.
      * intros [(pre & c & post & -> & U)|[U G]].
        -- left. exists pre, c, (post ++ [o]). rewrite <- app_assoc. split; auto. apply Forall_app; auto.
        -- right. split; auto. apply Forall_app; auto.
      * intros [(pre & c & post & E & U)|[U G]].
        -- destruct post as [|x post] using rev_ind.
           ++ apply app_inj_tail in E. destruct E as [_ ->]. destruct N. exists t, c. auto.
           ++ clear IHpost. change (pre ++ SReg clazz t c :: post ++ [x]) with (pre ++ (SReg clazz t c :: post) ++ [x]) in E. rewrite app_assoc in E.
              apply app_inj_tail in E. destruct E as [-> ->]. apply Forall_app in U. left. exists pre, c, post. tauto.
        -- apply Forall_app in U. right. tauto.
Qed.

Lemma f_get_in m k c : f_get m k = Some c -> In (k, c) m.
Proof. induction m as [|[q x] m IH]; cbn; [discriminate|]. destruct (key_eqb_spec k q) as [->|]; [intros [= ->]; auto|auto]. Qed.
Lemma assoc_in {A} k (l : list (string * A)) a : assoc k l = Some a -> In (k, a) l.
Proof. induction l as [|[q x] l IH]; cbn; [discriminate|]. destruct (String.eqb_spec k q) as [->|]; [intros [= ->]; auto|auto]. Qed.
Lemma from_value_other ts v : from_value ts v = inl IAE <-> ~ In v (map snd ts).
Proof.
  induction ts as [|[n t] ts IH]; cbn; [tauto|]. destruct (Z.eqb_spec t v) as [->|N].
  - split; [discriminate|tauto].
  - rewrite IH. tauto.
Qed.

(* ---- the initial tables ---- *)
Definition value_of (k : key) : val := match k with KInt z => VInt z | KStr s => VStr s end.
Definition opt_key_eqb (a : option key) (k : key) : bool := match a with Some x => key_eqb x k | None => false end.
Definition entry_ok (o : string) (es : list (key * string)) (kc : key * string) : bool :=
  match create (static_init es) (fst kc) with inr c => String.eqb c (snd kc) | inl _ => false end
  && match assoc (snd kc) lib_classes with Some _ => true | None => false end
  && match assoc o lib_classes, find o lib_layouts with
     | Some cd, Some L =>
         existsb (fun fw => match snd fw with
                            | WBody kf => match find kf L with
                                          | Some w => typed lib_classes (value_of (fst kc)) (type_of kf (c_fields cd)) && opt_key_eqb (tag_of (value_of (fst kc)) w) (fst kc)
                                          | None => false
                                          end
                            | _ => false
                            end) L
     | _, _ => false
     end.
Lemma entries_ok : forallb (fun oe => forallb (entry_ok (fst oe) (snd oe)) (snd oe)) all_registrations = true.
Proof. vm_compute. reflexivity. Qed.
Lemma tags_can_be_read : forall o es k c, In (o, es) all_registrations -> In (k, c) es ->
  create (static_init es) k = inr c
  /\ (exists cd, assoc c lib_classes = Some cd)
  /\ exists cd L f kf w v, assoc o lib_classes = Some cd /\ find o lib_layouts = Some L /\ In (f, WBody kf) L /\ find kf L = Some w
       /\ typed lib_classes v (type_of kf (c_fields cd)) = true /\ tag_of v w = Some k.
Proof.
  intros o es k c H1 H2. pose proof entries_ok as A. rewrite forallb_forall in A. specialize (A _ H1). cbn [fst snd] in A. rewrite forallb_forall in A.
  specialize (A _ H2). unfold entry_ok in A. cbn [fst snd] in A. apply andb_true_iff in A. destruct A as [A A3]. apply andb_true_iff in A. destruct A as [A1 A2].
  split; [destruct (create (static_init es) k); [discriminate|apply String.eqb_eq in A1; congruence]|].
  split; [destruct (assoc c lib_classes) as [cd|]; [exists cd; auto|discriminate]|].
  destruct (assoc o lib_classes) as [cd|]; [|discriminate]. destruct (find o lib_layouts) as [L|]; [|discriminate]. exists cd, L.
  apply existsb_exists in A3. destruct A3 as ([f w0] & Hin & E). cbn [snd] in E. destruct w0 as [| | | | |kf| | |]; try discriminate.
  destruct (find kf L) as [w|] eqn:F; [|discriminate]. exists f, kf, w, (value_of k). apply andb_true_iff in E. destruct E as [E1 E2].
  split; auto. split; auto. split; auto. split; auto. split; auto. destruct (tag_of (value_of k) w) as [k'|]; [|discriminate]. cbn in E2.
  destruct (key_eqb_spec k' k); [congruence|discriminate].
Qed.
