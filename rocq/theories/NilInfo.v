(** Files without an info: /repo/pkging/mem/embed.go:46-92 for payloads in which
    a file's "info" is missing or null.

    Marshal.v's pkger has no such files; Go stores a nil *pkging.FileInfo for them
    (embed.go:69-75).  Here the pointer is an option, and the three methods of
    the pkger that look at it are modelled for a pkger just loaded.  The order
    of Go's map iteration (embed.go:63) is left open: [raw_result] relates a
    text to every outcome it may have. *)
From Verif Require Import Bytes GoPath Here GoTypes Mem MemSpec JsonStr JsonText Base64 Embed JsonSpec RawJson Marshal MemBase MarshalMem.

(** mem.Pkger, mem.go:29-33, just loaded. *)
Record npkg := NPkg {
  g_here : hinfo;
  g_infos : gmap bytes hinfo;
  g_files : gmap path nfile
}.

(** embed.go:64-77: one Store per entry, in the order given. *)
Fixpoint n_load (parse : resolver) (her : hinfo) (l : list (bytes * nfile)) (acc : gmap path nfile)
    : option (gmap path nfile) :=
  match l with
  | [] => Some acc
  | (k, v) :: l =>
      match parse her k with
      | None => None
      | Some pt => n_load parse her l (<[pt := v]> acc)
      end
  end.

(** Pkger.UnmarshalJSON, embed.go:46-79: the outcomes of reading [b]. *)
Definition raw_result (parse : resolver) (b : bytes) (o : outcome npkg) : Prop :=
  match read_raw b with
  | Some RNull => o = Panicked
  | Some (RObj l) =>
      match r_data l with
      | Some (NData infos files her) =>
          exists es, es ≡ₚ map_to_list files /\
            o = match n_load parse her es ∅ with
                | Some fs => Done (NPkg her infos fs)
                | None => Failed EParse
                end
      | None => o = Failed bad_json
      end
  | _ => o = Failed bad_json
  end.

(** UnmarshalEmbed, embed.go:81-92. *)
Definition raw_embed (gunzip : bytes -> res bytes) (parse : resolver) (src : bytes) (o : outcome npkg) : Prop :=
  match decode gunzip src with
  | Err e => o = Failed e
  | Ok b => raw_result parse b o
  end.

Section Ops.
  Context (parse : resolver) (p : npkg).

  (** Pkger.Open, mem.go:165-192.  pkging.NewFileInfo (file_info.go:53-65) calls
      Name on the info (:56), which dereferences it (file_info.go:27-29). *)
  Definition n_open (name : bytes) : outcome nfile :=
    match parse (g_here p) name with
    | None => Failed (EPath (B"open") name)
    | Some pt =>
        match g_files p !! pt with
        | None => Failed ENotExist
        | Some f =>
            match n_info f with
            | None => Panicked
            | Some d => Done (JFile (Some (new_file_info d)) (n_here f) (n_path f) (n_data f) zero_path)
            end
        end
    end.

  (** Pkger.Stat, mem.go:195-205, with File.Stat, file.go:99-104. *)
  Definition n_stat (name : bytes) : outcome details :=
    match parse (g_here p) name with
    | None => Failed EParse
    | Some pt =>
        match g_files p !! pt with
        | None => Failed (EMsg could_not_stat)
        | Some f => match n_info f with None => Failed ENotExist | Some d => Done d end
        end
    end.

  (** The loop of Pkger.Walk, mem.go:216-250, with a callback that records what
      it is given and returns nil. *)
  Fixpoint n_walk_loop (pt : path) (keys : list path) : list (bytes * details) * option gerr :=
    match keys with
    | [] => ([], None)
    | k :: keys =>
        if negb (bool_decide (p_pkg k = p_pkg pt)) then n_walk_loop pt keys
        else if negb (has_prefix (p_name k) (p_name pt)) then n_walk_loop pt keys
        else if has_prefix (p_name k) (B"!") then n_walk_loop pt keys
        else
          match g_files p !! k with
          | None => ([], Some ENotExist)
          | Some f =>
              match n_info f with
              | None => ([], Some ENotExist)
              | Some d => let '(l, e) := n_walk_loop pt keys in ((path_string k, new_file_info d) :: l, e)
              end
          end
    end.

  (** Pkger.Walk, mem.go:208-252. *)
  Definition n_walk (root : bytes) : list (bytes * details) * option gerr :=
    match parse (g_here p) root with
    | None => ([], Some EParse)
    | Some pt => n_walk_loop pt (merge_sort key_le (elements (dom (g_files p))))
    end.
End Ops.

(** ** Agreement with Marshal.v and Mem.v when no info is missing *)

Lemma n_load_spec parse m l m' acc :
  wf m -> load_files parse m l = Ok m' ->
  (forall pt, acc !! pt = nfile_of <$> (efile_of <$> file_at m pt)) ->
  exists fs, n_load parse (m_here m) (prod_map id nfile_of <$> l) acc = Some fs /\
    m_here m' = m_here m /\ m_infos m' = m_infos m /\
    forall pt, fs !! pt = nfile_of <$> (efile_of <$> file_at m' pt).
Proof.
  revert m acc. induction l as [|[k v] l IH]; intros m acc Hw Hl Ha.
  - cbn in Hl. injection Hl as <-. by exists acc.
  - cbn [load_files] in Hl. unfold mem_parse in Hl. cbn [fmap list_fmap n_load prod_map fst snd].
    change (id k) with k. destruct (parse (m_here m) k) as [pt|] eqn:Ek; [|done].
    change (FObj (e_here v) (e_info v) (e_path v) (e_data v) (e_parent v) None None) with (fobj_of v) in Hl.
    destruct (alloc m (fobj_of v)) as [m1 r] eqn:Ea.
    assert (Em : m1 = (alloc m (fobj_of v)).1) by (by rewrite Ea).
    assert (Er : r = (alloc m (fobj_of v)).2) by (by rewrite Ea). subst m1 r. clear Ea.
    set (m2 := store (alloc m (fobj_of v)).1 pt (alloc m (fobj_of v)).2) in *.
    assert (Hw2 : wf m2) by (by apply wf_alloc_store).
    apply (IH m2 (<[pt := nfile_of v]> acc) Hw2 Hl). intros q.
    destruct (decide (pt = q)) as [<-|Hq].
    + rewrite lookup_insert. unfold m2. rewrite file_at_store_eq. cbn [fmap option_fmap option_map].
      by rewrite efile_fobj.
    + rewrite lookup_insert_ne by done. unfold m2. by rewrite file_at_store_ne, Ha.
Qed.

Lemma wf_nothing her infos : wf (Mem her infos ∅ ∅ 0).
Proof. split; simpl; intros; by rewrite lookup_empty in *. Qed.

Lemma whole_map (fs : gmap bytes nfile) :
  forallb has_info (map_to_list fs) = true -> nfile_of <$> omap whole fs = fs.
Proof.
  intros H. rewrite forallb_forall in H. apply map_eq. intros k. rewrite lookup_fmap, lookup_omap.
  destruct (fs !! k) as [[i h p d q]|] eqn:E; [|done]. cbn [mbind option_bind].
  assert (Hi : has_info (k, JFile i h p d q) = true) by (apply H, elem_of_list_In, elem_of_map_to_list, E).
  unfold has_info in Hi. cbn [snd n_info] in Hi. destruct i; [|done]. done.
Qed.

(** Where Marshal.v's reader succeeds, so does this one, with the same files. *)
Lemma raw_agrees parse order b m :
  (forall l, order l ≡ₚ l) -> unmarshal_json parse order b = Done m ->
  exists p, raw_result parse b (Done p) /\ g_here p = m_here m /\ g_infos p = m_infos m /\
    forall pt, g_files p !! pt = nfile_of <$> (efile_of <$> file_at m pt).
Proof.
  intros Ho H. unfold unmarshal_json in H. unfold raw_result.
  destruct (read_raw b) as [[]|]; try done. destruct (r_data l) as [[infos files her]|]; [|done].
  cbn [nd_infos nd_files nd_here] in H. destruct (forallb has_info (map_to_list files)) eqn:Ew; [|done].
  destruct (load parse her infos _) as [m1|] eqn:El; [|done]. injection H as ->. unfold load in El.
  destruct (n_load_spec parse _ _ _ ∅ (wf_nothing her infos) El) as (fs & H1 & H2 & H3 & H4).
  { intros pt. rewrite lookup_empty. unfold file_at. cbn [m_files]. by rewrite lookup_empty. }
  exists (NPkg her infos fs). cbn [g_here g_infos g_files]. split_and!; try done.
  exists (prod_map id nfile_of <$> order (map_to_list (omap whole files))). split.
  - rewrite Ho. rewrite <- map_to_list_fmap. by rewrite whole_map.
  - cbn [m_here] in H1. by rewrite H1.
Qed.
