(** Specification vocabulary for the files that a command may change. *)
From Verif Require Export DialSpec StartSpec CatalogueDownload.

(** [may_change cwd dir f e q p]: serving the request [q] may change the file [p]: share of a readable file and get of a
    file that another host describes change the index and the file's own progress file, clean changes files in the
    directory of the catalogue; list and chims change nothing *)
Inductive may_change (cwd dir : path) (f : fs) (e : cenv) : rpcreq -> path -> Prop :=
| mc_share_index p l : file_at f (abs cwd p) = Some l -> may_change cwd dir f e (RqShare p) (join2 dir index_name)
| mc_share_progress p l : file_at f (abs cwd p) = Some l -> may_change cwd dir f e (RqShare p) (join2 dir (hash_string (sha1 l)))
| mc_get_index h en : describes_one (ce_listing e) h en -> may_change cwd dir f e (RqGet h) (join2 dir index_name)
| mc_get_progress h en : describes_one (ce_listing e) h en -> may_change cwd dir f e (RqGet h) (join2 dir (hash_string h))
| mc_clean p : parent p = dir -> may_change cwd dir f e RqClean p.
