(** What "the services of a client are those its configuration defines" means. *)
From Verif Require Import Base Json M_Services.

(** the functions listed in the configuration, in their order (entries without 'function' do not count) *)
Inductive names_functions (I : imports) : list (option string) -> list pyobj -> Prop :=
| nf_nil : names_functions I [] []
| nf_skip : forall r l, names_functions I r l -> names_functions I (None :: r) l
| nf_some : forall q o r l, importer I q = Ok o -> names_functions I r l -> names_functions I (Some q :: r) (o :: l).
(** the class that a definition names *)
Definition names_class (I : imports) (d : sdef) (k : sclass) : Prop :=
  d_class d = Some (CObj k) \/ exists q, d_class d = Some (CName q) /\ importer I q = Ok (PClass k).
(** the 'conf' of a definition *)
Definition conf_of (h : kheap) (d : sdef) : dict val :=
  match d_kwargs d with
  | Some l => match dget "conf" (h l) with Some (KVal (VDict c)) => c | _ => [] end
  | None => []
  end.
(** [i] is the service that definition [d] describes, for client number [client] *)
Record describes (I : imports) (h : kheap) (client : nat) (factory : string) (d : sdef) (i : inst) : Prop := mkdescribes {
  ds_class : names_class I d (i_class i);
  ds_client : i_client i = client;
  ds_factory : i_factory i = factory;
  ds_conf : i_conf i = conf_of h d;
  ds_pre : exists l, names_functions I (d_pre d) l /\ i_pre i = map PFun (k_pre (i_class i)) ++ l;
  ds_post : exists l, names_functions I (d_post d) l /\ i_post i = map PFun (k_post (i_class i)) ++ l
}.
(** definition [d] is the last in [defs] whose class is called [n] *)
Definition last_for (I : imports) (n : string) (defs : dict sdef) (d : sdef) : Prop :=
  exists before key after k, defs = before ++ (key, d) :: after /\ names_class I d k /\ k_service_name k = n /\
    forall key' d' k', In (key', d') after -> names_class I d' k' -> k_service_name k' <> n.

(** a sequence of clients made before, each with its own number, factory and definitions, and
    whether they succeeded or not *)
Definition made_before (I : imports) (cs : list (nat * string * dict sdef)) (h : kheap) : kheap :=
  fold_left (fun h c => snd (init_services I (fst (fst c)) (snd (fst c)) (snd c) h)) cs h.
(** a definition that can be used: its class exists and takes the given arguments, and the
    functions it lists exist *)
Definition usable (I : imports) (h : kheap) (d : sdef) : Prop :=
  exists k pre post, names_class I d k /\ names_functions I (d_pre d) pre /\ names_functions I (d_post d) post /\
    forall l names a, d_kwargs d = Some l -> k_accepts k = Some names -> dget a (h l) <> None ->
      In a (["client_get"; "client_authn_factory"; "conf"] ++ names).
