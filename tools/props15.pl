# Prints the break properties of the Unicode Character Database that Perl has with it, as ranges; surrogates are left out.
use Unicode::UCD qw(prop_invmap);
print "version ", Unicode::UCD::UnicodeVersion(), "\n";
my %vals = (GCB => [qw(CR LF Control Extend ZWJ Regional_Indicator Prepend SpacingMark L V T LV LVT)],
  WB => [qw(CR LF Newline Extend ZWJ Format Regional_Indicator Katakana Hebrew_Letter ALetter Single_Quote Double_Quote MidNumLet MidLetter MidNum Numeric ExtendNumLet WSegSpace)],
  SB => [qw(CR LF Extend Sep Format Sp Lower Upper OLetter Numeric ATerm SContinue STerm Close)]);
sub ranges { my ($name, $val, $p) = @_; my $re = qr/^$p\z/; my ($lo, $prev);
  for my $c (0 .. 0xD7FF, 0xE000 .. 0x10FFFF, -1) {
    if ($c >= 0 && chr($c) =~ $re) { if (defined $lo && $c != $prev + 1) { printf "%s %X %X %s\n", $name, $lo, $prev, $val; $lo = $c; } $lo = $c unless defined $lo; $prev = $c; }
    elsif (defined $lo) { printf "%s %X %X %s\n", $name, $lo, $prev, $val; undef $lo; } } }
for my $p (sort keys %vals) { ranges($p, $_, "\\p{$p=$_}") for @{$vals{$p}}; }
ranges("extpict", "true", '\p{ExtPict}'); ranges("emoji", "true", '\p{Emoji}'); ranges("han", "true", '\p{Script=Han}'); ranges("hiragana", "true", '\p{Script=Hiragana}'); ranges("encoded", "true", '\P{Age=Unassigned}');
