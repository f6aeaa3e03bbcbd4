(** C149: the options of the trade gate. *)
From Coq Require Import String.
From Verif Require Import PyBase PyStr MDate MOrder MGate MFiles MSetup.
Open Scope list_scope.
Open Scope Z_scope.

(** ** Specification: the README's table of options and defaults (README.md:313-356) *)
Definition readme (fsenc win_dir : str) : list (str * oval) :=
  [(lit "order_dir", OStr win_dir); (lit "file_encoding", OStr fsenc);
   (lit "counter_type", OStr (lit "UM0")); (lit "algo_type", OStr (lit "DMA"));
   (lit "wait_lock_internal", ONum 50000); (lit "wait_lock_time_out", ONum 5000000);
   (lit "ignore_error_line", OBool true)].
(** where the gate keeps the value of each *)
Definition setting (g : gset) (n : str) : option oval :=
  if str_eqb n (lit "order_dir") then gt_order_dir g
  else if str_eqb n (lit "file_encoding") then gt_coding g
  else if str_eqb n (lit "counter_type") then gt_counter g
  else if str_eqb n (lit "algo_type") then gt_algo g
  else if str_eqb n (lit "wait_lock_internal") then gt_wait g
  else if str_eqb n (lit "wait_lock_time_out") then gt_time_out g
  else if str_eqb n (lit "ignore_error_line") then gt_ignore g
  else None.
(** the value given, else the default *)
Definition given_or (o : options) (n : str) (d : oval) : oval := match dget n o with Some v => v | None => d end.
(** keyword arguments that [sync_retry_kwargs] may hold *)
Definition retry_dict (d : list (str * oval)) : Prop :=
  (forall k v, In (k, v) d -> In k [lit "on_exception"; lit "max_attempts"; lit "attempt_internal"]) /\
  forall v, dget (lit "on_exception") d = Some v -> truth v = true -> exists n, v = OFun n.

Lemma retry_ok d : retry_dict d ->
  retry_args (ODict d) = Ok (Wrap (given_or d (lit "on_exception") ONone) (given_or d (lit "max_attempts") (ONum 3000000))
                               (given_or d (lit "attempt_internal") (ONum 100000))).
Proof.
  intros [H1 H2]. unfold retry_args.
  replace (forallb _ d) with true.
  2:{ symmetry. apply forallb_forall. intros [k v] Hin. apply memb_In. exact (H1 k v Hin). }
  unfold opt_get, given_or. destruct (dget (lit "on_exception") d) as [v|] eqn:E; [|reflexivity].
  destruct (truth v) eqn:T.
  - destruct (H2 v eq_refl T) as [n ->]. reflexivity.
  - destruct v; rewrite ?T; reflexivity.
Qed.
Lemma retry_dict_of d w : retry_args (ODict d) = Ok w -> retry_dict d.
Proof.
  unfold retry_args. destruct (forallb _ d) eqn:F; [|discriminate]. intro H. split.
  - intros k v Hin. rewrite forallb_forall in F. apply memb_In. exact (F (k, v) Hin).
  - intros v E T. unfold opt_get in H. rewrite E in H. destruct v; try (rewrite T in H; discriminate H). eexists. reflexivity.
Qed.

Section Gate.
  Context (exists_ : oval -> res bool) (makedirs : str -> res unit) (fsenc win_dir task : str) (day : Z) (runtime : str).
  Notation configure := (gate_configure exists_ makedirs fsenc win_dir task day runtime).

  (** After a set-up that returned every setting is the option given, else the README's
      default; a set-up adds one retrying wrapper, with the README's parameters if none are
      given; and the save file is that of the runtime directory, task and day. *)
  Theorem C149_settings :
    forall o g g', configure o g = (Ok tt, g') ->
      (forall n d, In (n, d) (readme fsenc win_dir) -> setting g' n = Some (given_or o n d)) /\
      (exists w, gt_wraps g' = w :: gt_wraps g /\
         (dget (lit "sync_retry_kwargs") o = None -> w = Wrap ONone (ONum 3000000) (ONum 150000)) /\
         (forall d, dget (lit "sync_retry_kwargs") o = Some (ODict d) ->
            wr_max w = given_or d (lit "max_attempts") (ONum 3000000) /\
            forall v, dget (lit "attempt_internal") d = Some v -> wr_wait w = v)) /\
      exists rt, given_or o (lit "runtime_dir") (OStr runtime) = OStr rt /\
        gt_data_dir g' = Some (data_dir rt) /\ gt_data_file g' = Some (data_file rt task day).
  Proof.
    intros o g g' H. unfold gate_configure in H.
    destruct (exists_ _) as [[|]|]; try discriminate.
    destruct (opt_get (lit "runtime_dir") (OStr runtime) o) as [| | |rt| |] eqn:Er; try discriminate.
    destruct (do b <- exists_ (OStr (data_dir rt)); _) as [u|]; [|discriminate].
    destruct (retry_args _) as [w|] eqn:Ew; [|discriminate]. injection H as <-.
    split; [|split].
    - intros n d [E|[E|[E|[E|[E|[E|[E|[]]]]]]]]; injection E as <- <-; reflexivity.
    - exists w. split; [reflexivity|]. unfold opt_get in Ew. split.
      + intro N. rewrite N in Ew. vm_compute in Ew. injection Ew as <-. reflexivity.
      + intros d Hd. rewrite Hd in Ew. pose proof (retry_ok d (retry_dict_of d w Ew)) as R. rewrite Ew in R.
        injection R as ->. split; [reflexivity|]. intros v Hv. cbn [wr_wait]. unfold given_or. rewrite Hv. reflexivity.
    - exists rt. split; [exact Er|]. split; reflexivity.
  Qed.

  (** A set-up returns exactly if the order directory exists, the runtime directory is a
      text whose directory for data is there or can be made, and sync_retry_kwargs is a
      dict of known arguments; otherwise it adds no wrapper. *)
  Theorem C149_returns :
    forall o g,
      (fst (configure o g) = Ok tt <->
        exists_ (given_or o (lit "order_dir") (OStr win_dir)) = Ok true /\
        (exists rt, given_or o (lit "runtime_dir") (OStr runtime) = OStr rt /\
           (exists_ (OStr (data_dir rt)) = Ok true \/
            exists_ (OStr (data_dir rt)) = Ok false /\ makedirs (data_dir rt) = Ok tt)) /\
        (forall v, dget (lit "sync_retry_kwargs") o = Some v -> exists d, v = ODict d /\ retry_dict d)) /\
      (fst (configure o g) <> Ok tt -> gt_wraps (snd (configure o g)) = gt_wraps g) /\
      (exists_ (given_or o (lit "order_dir") (OStr win_dir)) = Ok false -> fst (configure o g) = Err FileNotFoundError).
  Proof.
    intros o g. unfold gate_configure. fold (given_or o (lit "order_dir") (DEFAULT_ORDER_DIR win_dir)).
    change (DEFAULT_ORDER_DIR win_dir) with (OStr win_dir).
    change (opt_get (lit "order_dir") (OStr win_dir) o) with (given_or o (lit "order_dir") (OStr win_dir)).
    change (opt_get (lit "runtime_dir") (OStr runtime) o) with (given_or o (lit "runtime_dir") (OStr runtime)).
    destruct (exists_ (given_or o (lit "order_dir") (OStr win_dir))) as [[|]|x].
    2:{ cbn [fst snd gt_wraps]. split; [split; [discriminate|intros [H _]; discriminate H]|]. split; intros; reflexivity. }
    2:{ cbn [fst snd gt_wraps]. split; [split; [discriminate|intros [H _]; discriminate H]|]. split; [reflexivity|discriminate]. }
    destruct (given_or o (lit "runtime_dir") (OStr runtime)) as [| | |rt| |] eqn:Er;
      try (cbn [fst snd gt_wraps]; split; [split; [discriminate|intros (_ & (rt & H & _) & _); discriminate H]|split; [reflexivity|discriminate]]).
    assert (D : (do b <- exists_ (OStr (data_dir rt)); if b then Ok tt else makedirs (data_dir rt)) = Ok tt <->
      exists_ (OStr (data_dir rt)) = Ok true \/ exists_ (OStr (data_dir rt)) = Ok false /\ makedirs (data_dir rt) = Ok tt).
    { destruct (exists_ (OStr (data_dir rt))) as [[|]|x]; cbn [rbind].
      - split; [left; reflexivity|reflexivity].
      - split; [intro H; right; split; [reflexivity|exact H]|intros [H|[_ H]]; [discriminate H|exact H]].
      - split; [discriminate|intros [H|[H _]]; discriminate H]. }
    destruct (do b <- exists_ (OStr (data_dir rt)); _) as [[]|x].
    2:{ cbn [fst snd gt_wraps]. split; [|split; [reflexivity|discriminate]]. split; [discriminate|].
        intros (_ & (rt' & H & H2) & _). injection H as <-. apply D in H2. discriminate H2. }
    assert (R : (exists w, retry_args (opt_get (lit "sync_retry_kwargs") DEFAULT_SYNC_RETRY_KWARGS o) = Ok w) <->
      forall v, dget (lit "sync_retry_kwargs") o = Some v -> exists d, v = ODict d /\ retry_dict d).
    { unfold opt_get. destruct (dget (lit "sync_retry_kwargs") o) as [v|].
      - split.
        + intros [w Hw] v' E. injection E as <-. destruct v; try discriminate Hw. exists d. split; [reflexivity|]. exact (retry_dict_of d w Hw).
        + intro H. destruct (H v eq_refl) as (d & -> & Hd). eexists. apply retry_ok, Hd.
      - split; [intros _ v E; discriminate E|]. intros _. eexists. vm_compute. reflexivity. }
    destruct (retry_args _) as [w|x].
    - cbn [fst snd gt_wraps]. split; [|split; [congruence|discriminate]]. split; [intros _|reflexivity].
      split; [reflexivity|]. split; [exists rt; split; [reflexivity|apply D; reflexivity]|]. apply R. exists w. reflexivity.
    - cbn [fst snd gt_wraps]. split; [|split; [reflexivity|discriminate]]. split; [discriminate|].
      intros (_ & _ & H). apply R in H as [w H]. discriminate H.
  Qed.

  (** The README's default for attempt_internal, 0.15, is not in force when
      sync_retry_kwargs gives the other argument only: the wait is 0.1. *)
  Theorem C149_interval_refuted :
    forall o g g' m, configure (dset (lit "sync_retry_kwargs") (ODict [(lit "max_attempts", m)]) o) g = (Ok tt, g') ->
      exists ws, gt_wraps g' = Wrap ONone m (ONum 100000) :: ws.
  Proof.
    intros o g g' m H. unfold gate_configure in H.
    destruct (exists_ _) as [[|]|]; try discriminate.
    destruct (opt_get (lit "runtime_dir") (OStr runtime) _) as [| | |rt| |] eqn:Er; try discriminate.
    destruct (do b <- exists_ (OStr (data_dir rt)); _) as [u|]; [|discriminate].
    destruct (retry_args _) as [w|] eqn:Ew; [|discriminate]. injection H as <-.
    unfold opt_get in Ew at 1. rewrite dget_dset_same in Ew. rewrite retry_ok in Ew.
    - injection Ew as <-. eexists. reflexivity.
    - split; [intros k v [E|[]]; injection E as <- <-; right; left; reflexivity|].
      intros v E. vm_compute in E. discriminate E.
  Qed.

  Context (py_str : oval -> str) (eol : str).

  (** What the settings do to orders: without an account number that counts, or with an
      account type other than STOCK, every order is refused and nothing is written;
      otherwise the line of an order carries counter type, account and algorithm. *)
  Theorem C149_orders :
    forall o g g' go, configure o g = (Ok tt, g') -> gopts_of py_str eol g' = Some go ->
      (forall s, py_str (OStr s) = s) ->
      ((forall v, dget (lit "account_no") o = Some v -> truth v = false) \/
       (exists v, dget (lit "account_type") o = Some v /\ v <> OStr (lit "STOCK")) ->
       forall od x, gate_order go od x = (Err InvalidParam, x)) /\
      (go_ignore go = truth (given_or o (lit "ignore_error_line") (OBool true))) /\
      (forall a, dget (lit "account_no") o = Some (OStr a) -> a <> [] ->
        given_or o (lit "account_type") (OStr (lit "STOCK")) = OStr (lit "STOCK") ->
        forall od x sym, o_side od = Long -> encode (o_code od) = Ok sym -> ge_write (gs_env x) = WDone ->
          exists head tail,
            (head = [] \/ head = order_header ++ eol) /\
            text_of (ge_date (gs_env x)) (gs_ofile (snd (gate_order go od x))) =
              text_of (ge_date (gs_env x)) (gs_ofile x) ++ head ++
              join_with COMMA (fmt_stamp (ge_now (gs_env x)) :: o_id od ::
                py_str (given_or o (lit "counter_type") (OStr (lit "UM0"))) :: a :: sym ::
                match o_action od with Open => lit "1" | Close => lit "2" end ::
                str_of_Z (Z.abs (o_amount od)) ::
                py_str (given_or o (lit "algo_type") (OStr (lit "DMA"))) :: tail) ++ eol).
  Proof.
    intros o g g' go H Hgo Hs. unfold gate_configure in H.
    destruct (exists_ _) as [[|]|]; try discriminate.
    destruct (opt_get (lit "runtime_dir") (OStr runtime) o) as [| | |rt| |] eqn:Er; try discriminate.
    destruct (do b <- exists_ (OStr (data_dir rt)); _) as [u|]; [|discriminate].
    destruct (retry_args _) as [w|] eqn:Ew; [|discriminate]. injection H as <-.
    cbn [gopts_of gt_options gt_counter gt_algo gt_ignore] in Hgo. injection Hgo as <-.
    split; [|split].
    - intros Hbad od x. unfold gate_order. cbn [go_acct go_stock].
      destruct Hbad as [Hbad|(v & Hv & Hne)].
      + destruct (dget (lit "account_no") o) as [v|]; [|reflexivity]. rewrite (Hbad v eq_refl). reflexivity.
      + destruct (match dget (lit "account_no") o with Some _ => _ | None => _ end) as [|c r]; [reflexivity|].
        rewrite Hv. destruct v as [| | |s| |]; try reflexivity.
        destruct (str_eqb_spec s (lit "STOCK")) as [->|]; [congruence|reflexivity].
    - reflexivity.
    - intros a Ha Hna Hty od x sym Hlong Henc Hw. unfold gate_order. cbn [go_acct go_stock]. rewrite Ha. cbn [truth].
      destruct a as [|c r]; [congruence|]. rewrite Hs.
      assert (T : match dget (lit "account_type") o with Some (OStr s) => str_eqb s (lit "STOCK") | Some _ => false | None => true end = true).
      { unfold given_or in Hty. destruct (dget (lit "account_type") o) as [v|]; [|reflexivity]. rewrite Hty. reflexivity. }
      rewrite T. cbn [negb]. rewrite Hlong, Henc. unfold write_line. rewrite Hw. cbn [go_eol].
      set (gop := GOpts _ _ _ _ _ _). set (d := ge_date (gs_env x)).
      exists (match text_of d (gs_ofile x) with [] => order_header ++ eol | _ => [] end).
      exists (match o_style od with
              | Market _ => [match o_action od with Open => lit "P6" | Close => lit "P7" end; lit "0"; lit "0"; lit "0"]
              | Limit p => [lit "AT"; lit "0"; pval_str p; pval_str p] end).
      split; [destruct (text_of d (gs_ofile x)); [right|left]; reflexivity|].
      assert (S : forall y, gs_ofile (snd (save_orders y)) = gs_ofile y).
      { intro y. unfold save_orders. destruct (forallb _ _); [|reflexivity]. destruct (ge_save (gs_env y)); reflexivity. }
      rewrite S. cbn [gs_ofile set_gorders set_ofile]. unfold text_of at 1. rewrite dget_dset_same.
      unfold order_fields. subst gop. cbn [go_counter go_acct go_algo]. reflexivity.
  Qed.

  (** "account_no must be given" is not checked: the set-up does not look at its value, and an
      empty one passes although then no order can be placed. *)
  Theorem C149_account_refuted :
    (forall o g v, fst (configure (dset (lit "account_no") v o) g) = fst (configure (dset (lit "account_no") (OStr []) o) g)) /\
    forall o g g' go, configure (dset (lit "account_no") (OStr []) o) g = (Ok tt, g') -> gopts_of py_str eol g' = Some go ->
      (forall s, py_str (OStr s) = s) -> forall od x, gate_order go od x = (Err InvalidParam, x).
  Proof.
    split.
    - intros o g v.
      assert (G : forall n w, n <> lit "account_no" -> opt_get n w (dset (lit "account_no") v o) = opt_get n w (dset (lit "account_no") (OStr []) o)).
      { intros n w Hn. unfold opt_get. rewrite !dget_dset_other by exact Hn. reflexivity. }
      unfold gate_configure. rewrite !(G (lit "order_dir")) by (vm_compute; congruence).
      destruct (exists_ _) as [[|]|]; try reflexivity.
      rewrite !(G (lit "runtime_dir")) by (vm_compute; congruence).
      destruct (opt_get (lit "runtime_dir") (OStr runtime) _) as [| | |rt| |]; try reflexivity.
      destruct (do b <- exists_ (OStr (data_dir rt)); _) as [u|]; [|reflexivity].
      rewrite !(G (lit "sync_retry_kwargs")) by (vm_compute; congruence).
      destruct (retry_args _); reflexivity.
    - intros o g g' go H Hgo Hs. apply (C149_orders _ _ _ _ H Hgo Hs). left. intros v. rewrite dget_dset_same. intro E. injection E as <-. reflexivity.
  Qed.
End Gate.
Print Assumptions C149_settings.
Print Assumptions C149_returns.
Print Assumptions C149_interval_refuted.
Print Assumptions C149_orders.
Print Assumptions C149_account_refuted.

(** options of a strategy: an account, a directory, five attempts, and the text False for
    ignore_error_line, which counts as true *)
Definition demo_options : options :=
  [(lit "account_no", OStr (lit "12345")); (lit "order_dir", OStr (lit "/dma")); (lit "counter_type", OStr (lit "UF0"));
   (lit "sync_retry_kwargs", ODict [(lit "max_attempts", ONum 5000000)]); (lit "ignore_error_line", OStr (lit "False"))].
Definition demo_exists (v : oval) : res bool :=
  match v with OStr s => Ok (str_eqb s (lit "/dma")) | ONum _ => Ok false | _ => Err TypeError end.
Definition demo_setup (o : options) : res unit * gset :=
  gate_configure demo_exists (fun _ => Ok tt) (lit "utf-8") (lit "C:\dma") (lit "t1") 20000 (lit "/home/u/jqtrade") o (gset_new []).
Definition demo_str (v : oval) : str := match v with OStr s => s | _ => [] end.
Example C149_demo :
  fst (demo_setup demo_options) = Ok tt /\
  map (setting (snd (demo_setup demo_options))) (map fst (readme [] [])) =
    [Some (OStr (lit "/dma")); Some (OStr (lit "utf-8")); Some (OStr (lit "UF0")); Some (OStr (lit "DMA"));
     Some (ONum 50000); Some (ONum 5000000); Some (OStr (lit "False"))] /\
  gt_wraps (snd (demo_setup demo_options)) = [Wrap ONone (ONum 5000000) (ONum 100000)] /\
  gt_data_file (snd (demo_setup demo_options)) = Some (lit "/home/u/jqtrade/data/t1_20241004.json") /\
  gopts_of demo_str eol_posix (snd (demo_setup demo_options)) =
    Some (GOpts (lit "12345") true (lit "UF0") (lit "DMA") true eol_posix) /\
  fst (demo_setup []) = Err FileNotFoundError /\
  fst (demo_setup (dset (lit "sync_retry_kwargs") (ODict [(lit "attempts", ONum 1)]) demo_options)) = Err TypeError.
Proof. vm_compute. repeat split; reflexivity. Qed.

(** Values that count as false, as Python's documentation lists them. *)
Definition falsy (v : oval) : Prop := v = ONone \/ v = OBool false \/ v = ONum 0 \/ v = OStr [] \/ v = ODict [].
Theorem C149_truth : forall v, truth v = false <-> falsy v.
Proof.
  unfold falsy. intros [|b|z|s|d|n]; cbn [truth].
  - intuition.
  - destruct b; intuition discriminate.
  - destruct (Z.eqb_spec z 0) as [->|H]; cbn [negb]; [intuition|]. split; [discriminate|]. intros [E|[E|[E|[E|E]]]]; try discriminate E. injection E as E. contradiction.
  - destruct s; intuition discriminate.
  - destruct d; intuition discriminate.
  - intuition discriminate.
Qed.
Print Assumptions C149_truth.
(** An on_exception that counts as false is as good as none; one that is no function and does
    not fails the set-up. *)
Theorem C149_on_exception : forall v w, (falsy v -> exists r, retry_args (ODict [(lit "on_exception", v); (lit "max_attempts", w)]) = Ok r /\ wr_max r = w) /\
  (~ falsy v -> (forall n, v <> OFun n) -> retry_args (ODict [(lit "on_exception", v); (lit "max_attempts", w)]) = Err ValueError) /\
  (forall n, v = OFun n -> exists r, retry_args (ODict [(lit "on_exception", v); (lit "max_attempts", w)]) = Ok r /\ wr_on r = OFun n /\ wr_max r = w).
Proof.
  intros v w. rewrite <- C149_truth.
  assert (E : retry_args (ODict [(lit "on_exception", v); (lit "max_attempts", w)]) =
    match v with OFun _ => Ok (Wrap v w (ONum 100000)) | _ => if truth v then Err ValueError else Ok (Wrap v w (ONum 100000)) end) by reflexivity.
  rewrite E. split; [|split].
  - intro T. destruct v; cbn [truth] in *; rewrite ?T; eexists; split; reflexivity.
  - intros T N. destruct (truth v) eqn:Et; [|congruence]. destruct v; try reflexivity. exfalso. apply (N n eq_refl).
  - intros n ->. eexists. repeat split.
Qed.
Print Assumptions C149_on_exception.
