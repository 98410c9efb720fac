(** * Checking a file against its metadata and choosing between two caches:
    /repo/augpathlib/caches.py:598-629, 687-737

    Simplified: messages are not built, so that what asking for the remote or for the
    hex of something raises there is not told from the exceptions below. *)
From Coq Require Import String NArith ZArith Bool List.
From Verif Require Import Model.Py Model.PurePath Model.Meta Model.MetaUpdate Model.Fs Model.PathOps Model.Etag Model.Data Model.Cache.
Import ListNotations.

(** What is logged: etags that differ (606-609), "No checksum!" (622), "No checksum and no
    size!" (628) *)
Inductive note : Type := EtagDiffers | NoChecksum | NoSize.

Section Validate.
Variable K : conf.
Variable md5 : bytes -> bytes.
Variable chunk : Z.                    (* chunksize of the local class, core.py *)

(** LocalPath.etag, core.py:1517-1530; a size that is no number is compared with a
    number once there is anything to read, utils.py:223-228 *)
Definition file_etag (size : pyval) (d : bytes) : res (bytes * Z) :=
  match size with
  | PInt z | PSize z => local_etag md5 d chunk z
  | _ => match d with [] => local_etag md5 [] chunk 1 | _ => Err TypeError end
  end.

(** validate_file, 598-629.  An etag is a pair wherever it was read from storage.
    [self.meta] cannot be set (618): the only setters are in SqliteCache and
    SymlinkCache. *)
Definition validate_file (p : ppath) : M (list note) :=
  let! m <- cache_meta K p ;
  match m with
  | None => raise AttributeError
  | Some m =>
      if truthy (m_etag m) then
        let! f <- p_is_file p ;
        if f then
          let! d <- read_all p ;
          let! e <- lift (file_etag (m_chunksize m) d) ;
          match m_etag m with
          | PEtag b n => ret (if (bytes_eqb (fst e) b && Z.eqb (snd e) n)%bool then [] else [EtagDiffers])
          | _ => raise ValueError
          end
        else raise TypeError
      else if truthy (m_checksum m) then
        let! cy <- instance_cypher K p ;
        let! lc <- local_checksum K p cy ;
        let! m2 <- cache_meta K p ;
        match m2 with
        | None => raise AttributeError
        | Some m2 =>
            if py_eq lc (m_checksum m2) then ret []
            else let! _ <- lift (with_mismatch K m) ; raise AttributeError
        end
      else if negb (is_none (m_size m)) then
        let! e <- p_exists p ;
        let! ls <- (if e then
                      let! n <- sys_stat true p ;
                      let! _ <- local_checksum K p (c_cypher K) ;
                      ret (match n with File d _ => PInt (Z.of_nat (length d)) | _ => PNone end)
                    else ret PNone) ;
        let! m2 <- cache_meta K p ;
        match m2 with
        | None => raise AttributeError
        | Some m2 => if py_eq ls (m_size m2) then ret [NoChecksum] else raise SizeErr
        end
      else ret [NoSize]
  end.
End Validate.

Section Dedupe.
Variable dateparse : pyval -> res pyval.

(** A cache with the time its local file changed (None without a file, core.py:1228) *)
Record side : Type := mkSide { d_id : pyval; d_meta : option pathmeta; d_local : pyval }.
Inductive pick : Type := Mine | Theirs.

(** dedupe, 687-737; [pretend] makes no difference, nothing is removed *)
Definition dedupe (self other : side) : res pick :=
  if negb (py_eq (d_id self) (d_id other)) then Err ValueError
  else match d_meta self, d_meta other with
  | Some a, Some b =>
      do su <- get_updated dateparse a ;
      do ou <- get_updated dateparse b ;
      let lsu := d_local self in let lou := d_local other in
      do lt <- py_lt su ou ;
      do new <- (if lt then Ok Theirs
                 else do gt <- py_lt ou su ;
                      if gt then Ok Mine
                      else if (is_none lsu && is_none lou)%bool then Ok Mine
                      else if is_none lsu then Ok Theirs
                      else if is_none lou then Ok Mine
                      else do llt <- py_lt lsu lou ;
                           if llt then Ok Theirs
                           else do lgt <- py_lt lou lsu ;
                                if lgt then Ok Mine
                                else let ss := m_size a in let os := m_size b in
                                     if (negb (is_none ss) && negb (is_none os))%bool then Ok Mine
                                     else if is_none ss then Ok Theirs
                                     else if is_none os then Ok Mine
                                     else Err BaseExn) ;
      do _ <- update_meta dateparse (Some (match new with Mine => b | Theirs => a end)) (Some (match new with Mine => a | Theirs => b end)) ;
      Ok new
  | _, _ => Err AttributeError
  end.
End Dedupe.
