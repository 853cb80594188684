(** Model of /repo/cmd/server/server.go.  Not modelled: net/http itself (a path with
    // or .. is redirected before it reaches the handlers, HEAD and other methods are
    served like GET, a panic of a handler closes the connection). *)
From Verif Require Export Json Facade.
Open Scope Z_scope.

(** cmd/server/server.go:14-37: status and body of GET [path].  [nl], [ne]: which empty slices of
    the version are nil. *)
Definition http_get (nl ne : bool) (q : queryDb) (path : bytes) : res (Z * bytes) :=
  if bytes_eqb path (str "/version") then Ok (200, marshal_version nl ne (q_version q))
  else
    match path with
    | [] => Panic                              (* Path[1:] *)
    | _ :: ip =>
        let* ' (i, _, err) := QueryStr q ip in
        match err with
        | Some _ => Ok (404, [])
        | None => Ok (200, match i with Some i => marshal_info i | None => str "null" end)
        end
    end.
