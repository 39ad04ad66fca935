#!/usr/bin/perl
# Prints the checksums in SpecTables.v, from the Unicode data of Perl restricted to the characters of Unicode 14.0:
# the decompositions (one line per character that is not a Hangul syllable) and the combining classes.
use strict; use warnings; no warnings 'utf8';
use Unicode::Normalize qw(NFKD getCombinClass);
use Digest::SHA qw(sha256_hex);
my ($dec, $ccc) = ('', '');
for my $c (0 .. 0x10FFFF) {
  next if $c >= 0xD800 && $c < 0xE000;
  my $s = chr($c);
  next unless $s =~ /\p{Present_In: 14.0}/;
  my $k = getCombinClass($c);
  $ccc .= $s . chr(256 + $k) . "\n" if $k;
  next if $c >= 0xAC00 && $c < 0xAC00 + 11172;
  my $d = NFKD($s);
  $dec .= $s . $d . "\n" if $d ne $s;
}
utf8::encode($dec); utf8::encode($ccc);
print length($dec), ' ', sha256_hex($dec), "\n", length($ccc), ' ', sha256_hex($ccc), "\n";
