(** What a pattern means, independently of the matcher of Regex.v: the set of
    triples (text before, matched text, text after) it relates.  Anchors look at
    the text before and after; captures and priorities play no role here. *)
From Verif Require Export Regex.

Inductive den : re -> str -> str -> str -> Prop :=
| den_eps : forall pre post, den Eps pre [] post
| den_cls : forall (p : char -> bool) c pre post, p c = true -> den (Cls p) pre [c] post
| den_seq : forall a b pre u v post,
    den a pre u (v ++ post) -> den b (pre ++ u) v post -> den (Seq a b) pre (u ++ v) post
| den_alt_l : forall a b pre u post, den a pre u post -> den (Alt a b) pre u post
| den_alt_r : forall a b pre u post, den b pre u post -> den (Alt a b) pre u post
| den_star_nil : forall g a pre post, den (Star g a) pre [] post
| den_star_cons : forall g a pre u v post,
    den a pre u (v ++ post) -> den (Star g a) (pre ++ u) v post -> den (Star g a) pre (u ++ v) post
| den_opt_none : forall a pre post, den (Opt a) pre [] post
| den_opt_some : forall a pre u post, den a pre u post -> den (Opt a) pre u post
| den_grp : forall n a pre u post, den a pre u post -> den (Grp n a) pre u post
| den_bol : forall post, den Bol [] [] post
| den_eol : forall pre, den Eol pre [] [].
