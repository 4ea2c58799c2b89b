(** Drawings and presentations: pages as trees with names. *)
From Verif Require Export Drawing PageNamesSpec.

(** ** The document: what is in its body, in order, and the pages there are *)
Record pdoc := PD { pd_list : list N; pd_trees : gmap N elem }.
Definition is_page (d : pdoc) (x : N) : Prop := is_Some (pd_trees d !! x).
Definition pd_pages (d : pdoc) : list N := filter (is_page d) (pd_list d).
Definition pd_name (d : pdoc) (x : N) : option pystr := pd_trees d !! x ≫= e_get "draw:name".
Definition pd_order (l : list N) (d : pdoc) : pdoc := PD l (pd_trees d).
Definition pd_put (x : N) (e : elem) (d : pdoc) : pdoc := PD (pd_list d) (<[x := e]> (pd_trees d)).
Definition fresh_page (x : N) (d : pdoc) : Prop := pd_trees d !! x = None /\ x ∉ pd_list d.

(** What a call does.  Positions of [pages.insert] count everything in the body.  After a failing
    DrawingPage("") there is a page nobody has. *)
Inductive pstep (d : pdoc) : dop -> pdoc -> res (option N) -> Prop :=
  | ps_get k c : find_page (pd_name d) k (pd_pages d) = Ok c -> pstep d (DGet k) d (Ok (Some c))
  | ps_get_no k e : find_page (pd_name d) k (pd_pages d) = Err e -> pstep d (DGet k) d (Err e)
  | ps_set k c old : is_page d c -> find_page (pd_name d) k (pd_pages d) = Ok old -> pstep d (DSet k c) (pd_order (put_page old c (pd_list d)) d) (Ok None)
  | ps_set_no k c e : is_page d c -> find_page (pd_name d) k (pd_pages d) = Err e -> pstep d (DSet k c) d (Err e)
  | ps_del k old : find_page (pd_name d) k (pd_pages d) = Ok old -> pstep d (DDel k) (pd_order (without old (pd_list d)) d) (Ok None)
  | ps_del_no k e : find_page (pd_name d) k (pd_pages d) = Err e -> pstep d (DDel k) d (Err e)
  | ps_append c : is_page d c -> pstep d (DAppend c) (pd_order (without c (pd_list d) ++ [c]) d) (Ok (Some c))
  | ps_insert i c : is_page d c -> pstep d (DInsert i c) (pd_order (put_at i c (pd_list d)) d) (Ok (Some c))
  | ps_name c s e : pd_trees d !! c = Some e -> s <> [] -> pstep d (DName c s) (pd_put c (e_set "draw:name" s e) d) (Ok None)
  | ps_name_no c : is_page d c -> pstep d (DName c []) d (Err ValueError)
  | ps_new s x : s <> [] -> fresh_page x d -> pstep d (DNew s) (pd_put x (e_set "draw:name" s (new_elem "draw:page")) d) (Ok (Some x))
  | ps_new_no x : fresh_page x d -> pstep d (DNew []) (pd_put x (new_elem "draw:page") d) (Err ValueError)
  | ps_on c f e : pd_trees d !! c = Some e -> (f e).2 = Ok tt -> pstep d (DOn c f) (pd_put c (f e).1 d) (Ok None)
  | ps_on_no c f e x : pd_trees d !! c = Some e -> (f e).2 = Err x -> pstep d (DOn c f) (pd_put c (f e).1 d) (Err x).
Inductive psteps : list dop -> pdoc -> pdoc -> list (res (option N)) -> Prop :=
  | pss_nil d : psteps [] d d []
  | pss_cons o os d d1 d2 r rs : pstep d o d1 r -> psteps os d1 d2 rs -> psteps (o :: os) d d2 (r :: rs).
(** the call does nothing to the page [x] itself *)
Definition spares (x : N) (o : dop) : Prop := match o with DName c _ | DOn c _ => c <> x | _ => True end.

(** ** Memory *)
(** the content [r] with the body [y] is one of the trees in memory *)
Definition drawing (t : string) (S : node) (n : N) (r y : node) : Prop :=
  wfs S /\ (forall z, z ∈ ids S -> z < n)%N /\ r ∈ kids S /\ ltag r <> "draw:page"%string /\ drawing_body t r = Some y.
Definition page_kids (y : node) : list node := filter (fun k => ltag k = "draw:page"%string) (kids y).
Definition other_kids (y : node) : list node := filter (fun k => ~ ltag k = "draw:page"%string) (kids y).
(** the document in memory, and the pages without a document *)
Definition pdoc_of (S y : node) : pdoc :=
  PD (map nid (kids y)) (list_to_map (map (fun k => (nid k, erase k)) (page_kids y ++ page_kids S))).
(** a page of the document, or one that is in no document *)
Definition parentless (w : node) (c : N) : Prop := forall z, element z w -> c ∉ children z w.
Definition known (b : N) (w : node) (c : N) : Prop :=
  element c w /\ tagged "draw:page" w c /\ (c ∈ children b w \/ parentless w c).
Definition dop_pages (o : dop) : list N :=
  match o with DSet _ c | DAppend c | DInsert _ c | DName c _ | DOn c _ => [c] | _ => [] end.
(** work on a page leaves it a page *)
Definition stays_page (o : dop) : Prop :=
  match o with DOn _ f => forall e, e_tag e = "draw:page"%string -> e_tag (f e).1 = "draw:page"%string | _ => True end.
Fixpoint fits `{U : Unicode} (b : N) (os : list dop) (m : desk) : Prop :=
  match os with
  | [] => True
  | o :: os => stays_page o /\ Forall (known b (d_store m)) (dop_pages o) /\ fits b os (d_op (pages_of b) o m).1
  end.
(** memory shows the document *)
Definition shows_pages (b : N) (w : node) (d : pdoc) : Prop :=
  children b w = pd_list d /\ pages (pages_of b) w = pd_pages d /\
  (forall x e, pd_trees d !! x = Some e -> exists k, sub x w = Some k /\ erase k = e).
(** ** What is in the body: the pages, and between them what was there before *)
Definition body_items (y : node) (d : pdoc) : list elem :=
  omap (fun x => match pd_trees d !! x with
                 | Some e => Some e
                 | None => erase <$> head (filter (fun k => nid k = x) (kids y))
                 end) (pd_list d).
