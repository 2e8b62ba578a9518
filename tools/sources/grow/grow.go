package grow

import "growdep"

// Errors:
//
//    - dep-missing --
//    - dep-closed  --
func Copy() error {
	if err := growdep.Read(); err != nil {
		return err
	}
	return put()
}

// Errors:
//
//    - dep-closed --
func Put() error {
	return put()
}

func put() error {
	err := growdep.Write()
	return err
}

// Errors:
//
//    - dep-full --
func Fill() error {
	return &growdep.Full{}
}

type Journal interface {
	growdep.Store
}

// Errors:
//
//    - dep-store --
func Keep(s Journal) error {
	return s.Save()
}
