# Prints properties of the Unicode Character Database that Perl has with it: canonical decomposition mappings, combining classes, simple case mappings.
use Unicode::UCD qw(prop_invmap);
print "version ", Unicode::UCD::UnicodeVersion(), "\n";
my ($tl, $tm) = prop_invmap("dt");
sub dt { my $c = shift; my ($a, $b) = (0, $#$tl); while ($a < $b) { my $k = int(($a + $b + 1) / 2); if ($tl->[$k] <= $c) { $a = $k } else { $b = $k - 1 } } return $tm->[$a]; }
for my $p ("dm", "ccc", "slc", "suc", "stc") {
  my ($l, $m) = prop_invmap($p);
  for my $i (0 .. $#$l) {
    my $x = $m->[$i]; next if !ref $x && $x eq "0"; next if $x eq "<hangul syllable>";
    my $hi = $i < $#$l ? $l->[$i + 1] - 1 : 0x10ffff;
    if ($p eq "ccc") { printf "ccc %X %X %d\n", $l->[$i], $hi, $x; next; }
    for my $c ($l->[$i] .. $hi) {
      next if $p eq "dm" && dt($c) ne "Canonical";
      my @v = ref $x ? @$x : ($x + $c - $l->[$i]);
      printf "%s %X %s\n", $p, $c, join(" ", map { sprintf "%X", $_ } @v);
    }
  }
}
