#!/bin/bash
# regenerate the file list of rocq/_CoqProject (flags line kept) in dependency order
cd /verif/rocq && (head -1 _CoqProject; cd theories && coqdep -Q . Verif -sort *.v 2>/dev/null | tr ' ' '\n' | sed -e 's#^\./##' -e '/^$/d' -e 's#^#theories/#') > /tmp/cp && cp /tmp/cp _CoqProject
