(** Model of how the parts of an entity find each other: the federation entity (src/fedservice/entity/utils.py) and
    attributes such as the key jar (src/fedservice/combo/__init__.py, src/fedservice/entity/__init__.py,
    src/fedservice/entity/client/__init__.py, src/fedservice/entity/server/__init__.py).

    A unit is looked at together with the units above it, which is what [upstream_get] gives access to; [unit_get] of
    idpyoidc calls the method get_<what> of the unit, get_unit returns the unit.  Classes of idpyoidc (and those of
    fedservice that do not define get_attribute) look for an attribute like FederationEntity does; this is assumed.
    A key jar is a dictionary from issuers to keys and counts as false if it is empty. *)
From Verif Require Export Py.

Inductive ukind :=
| UCombo          (* FederationCombo *)
| UFederation     (* FederationEntity *)
| UFedPart        (* FederationClientEntity, FederationServerEntity *)
| UServer         (* appserver.ServerEntity *)
| UOther.         (* any other unit *)

Inductive unit_t := mkUnit (kind : ukind) (attrs : dict val) (parts : list (string * unit_t)).

Definition u_kind (u : unit_t) : ukind := match u with mkUnit k _ _ => k end.
Definition u_attrs (u : unit_t) : dict val := match u with mkUnit _ a _ => a end.
Definition u_parts (u : unit_t) : list (string * unit_t) := match u with mkUnit _ _ p => p end.

(** a unit and what is above it, nearest first *)
Definition place := list unit_t.

Definition is_federation (u : unit_t) : bool := match u_kind u with UFederation => true | _ => false end.

(** Combo.get (combo/__init__.py:76-80) *)
Fixpoint part (name : string) (ps : list (string * unit_t)) : option unit_t :=
  match ps with
  | [] => None
  | (n, u) :: ps' => if String.eqb name n then Some u else part name ps'
  end.

(** entity/utils.py:20-36; without anything above, a combo is asked for its part; ServerEntity.get_guise takes no argument
    (appserver/__init__.py:191) *)
Fixpoint get_federation_entity (p : place) : res (option place) :=
  match p with
  | [] => Ok None
  | u :: up =>
      if is_federation u then Ok (Some p)
      else match up with
           | _ :: _ => get_federation_entity up
           | [] =>
               match u_kind u with
               | UCombo => Ok (match part "federation_entity" (u_parts u) with
                               | Some f => Some [f; u]
                               | None => None
                               end)
               | UServer => Err TypeError
               | _ => Ok None
               end
           end
  end.

(** idpyoidc.node.topmost_unit *)
Fixpoint topmost_unit (p : place) : option unit_t :=
  match p with
  | [] => None
  | [u] => Some u
  | _ :: up => topmost_unit up
  end.

(** get_attribute: entity/__init__.py:116-131 (also for idpyoidc's classes), entity/client/__init__.py:175-180 and
    entity/server/__init__.py:95-100, combo/__init__.py:127-140 *)
Fixpoint get_attribute (p : place) (attr : string) : res val :=
  match p with
  | [] => Ok VNull
  | u :: up =>
      let own := dget attr (u_attrs u) in
      let above := match up with [] => Ok VNull | _ => get_attribute up attr end in
      match u_kind u with
      | UCombo =>
          match own with
          | Some v => if truthy v then Ok v
                      else if String.eqb attr "keyjar" then
                        match part "federation_entity" (u_parts u) with
                        | None => Err KeyError
                        | Some f => match dget "keyjar" (u_attrs f) with Some j => Ok j | None => Err AttributeError end
                        end
                      else Ok VNull
          | None => if String.eqb attr "keyjar" then
                      match part "federation_entity" (u_parts u) with
                      | None => Err KeyError
                      | Some f => match dget "keyjar" (u_attrs f) with Some j => Ok j | None => Err AttributeError end
                      end
                    else Ok VNull
          end
      | UFedPart =>
          match own with
          | Some v => if truthy v then Ok v
                      else match up with [] => Err TypeError | _ => get_attribute up attr end
          | None => Err AttributeError
          end
      | UFederation | UServer | UOther =>
          match own with
          | Some v => if truthy v then Ok v else above
          | None => above
          end
      end
  end.

(** self.upstream_get('attribute', 'keyjar') of a unit, a function, a service or an endpoint at [p] below [up]:
    verifier.py:33,59, trust_chain_collector.py:87,102, fetch.py:34, trust_mark_entity/entity.py:101,114,
    appserver/oidc/authorization.py:76 and others *)
Definition upstream_jar (up : place) : res val :=
  match up with [] => Err TypeError | _ => get_attribute up "keyjar" end.

(** get_federation_entity(self).get_attribute('keyjar'): trust_mark_verifier.py:71, server/entity_configuration.py:51,
    server/resolve.py:56, appclient/oidc/registration.py:64, appclient/oauth2/registration.py:91 *)
Definition federation_jar (p : place) : res val :=
  let* f := get_federation_entity p in
  match f with
  | Some q => get_attribute q "keyjar"
  | None => Err AttributeError
  end.

(** get_federation_entity(self).keyjar: service.py:19, trust_anchor.py:13, verifier.py:28,
    trust_mark_entity/entity.py:91,195, entity/__init__.py:323 *)
Definition direct_jar (p : place) : res val :=
  let* f := get_federation_entity p in
  match f with
  | Some (u :: _) => match dget "keyjar" (u_attrs u) with Some v => Ok v | None => Err AttributeError end
  | _ => Err AttributeError
  end.
